(** C60, C98, C100, C101, C102: the Node.js server. *)
From Verif Require Import Base Num M_Helper M_Gnss M_Alignment M_Telescope M_Node S_Stellarium S_NexStar M_Stellarium P_Stellarium P_Round P_Sky P_Node.
From Verif Require M_NexStar Properties_NexStar.
From Coq Require Import Reals Lra Psatz.
From Flocq Require Import Core.
Open Scope Z_scope.

(** the integer with the 32-bit two's-complement pattern [w] *)
Definition as_signed (w : Z) : Z := if w <? 2 ^ 31 then w else w - 2 ^ 32.
(** first byte not 's': those strings are taken as a NexStar sync request *)
Definition not_sync (data : list Z) : Prop := hd 0 data <> 115.

(** ** C60 *)
(** exact arithmetic: whatever the telescope state, the reply carries the received RA and DEC words, and the
    corrected position is the received one (24 h = 2^32, 360 degrees = 2^32) *)
Theorem C60_goto_answered_exact : forall now cl t data, bytes_ok data -> (20 <= length data)%nat -> not_sync data ->
  exists t', on_data NumR now cl t data = Ret (Some (current_position (now * 1000) (field 12 4 data) (field 16 4 data)), t') /\
    position NumR t' = position NumR t /\
    (ra (getCorrected NumR t') = IZR (field 12 4 data) * 24 / 4294967296)%R /\
    (dec (getCorrected NumR t') = IZR (as_signed (field 16 4 data)) * 360 / 4294967296)%R.
Proof. exact on_data_R. Qed.
Print Assumptions C60_goto_answered_exact.
(** IEEE: no exception and at most one unit off, except possibly for the extreme words *)
Theorem C60_goto_answered_ieee : forall now cl t data, bytes_ok data -> (20 <= length data)%nat -> not_sync data ->
  is_b64 (ra (position NumB t)) -> (Rabs (ra (position NumB t)) <= 512)%R -> (Rabs (dec (position NumB t)) <= 512)%R ->
  field 12 4 data < 2 ^ 32 - 1 -> - 2 ^ 31 < as_signed (field 16 4 data) < 2 ^ 31 - 1 ->
  exists r d t', on_data NumB now cl t data = Ret (Some (current_position (now * 1000) r d), t') /\
    Z.abs (r - field 12 4 data) <= 1 /\ Z.abs (d - as_signed (field 16 4 data)) <= 1.
Proof. exact on_data_B. Qed.
Print Assumptions C60_goto_answered_ieee.
Theorem C60_calibrate_returns_reference : forall t reference,
  ra (getCorrected NumR (calibrate NumR t reference)) = ra reference /\ dec (getCorrected NumR (calibrate NumR t reference)) = dec reference.
Proof. intros t r. unfold getCorrected, calibrate. cbn [ra dec position offset fadd fsub NumR]. change (F NumR) with R. split; ring. Qed.
Print Assumptions C60_calibrate_returns_reference.
Example C60_nonvacuous : forall time r d, bytes_ok (goto_message time r d) /\ (20 <= length (goto_message time r d))%nat /\ not_sync (goto_message time r d).
Proof.
  intros. split; [|split; [vm_compute; lia|vm_compute; lia]]. unfold goto_message, bytes_ok. rewrite !Forall_app.
  repeat split; apply le_bytes_nonneg.
Qed.

(** ** C98: what packCurrentPosition can send (exact arithmetic) *)
Theorem C98_pack_exactly : forall now (p : equatorial NumR),
  let r := (ra p * 4294967296 / 24)%R in let d := (dec p * 4294967296 / 360)%R in
  ((0 <= r <= 4294967295 /\ -2147483648 <= d <= 2147483647)%R ->
     packCurrentPosition NumR now p = Ret (current_position (now * 1000) (Ztrunc r) (Ztrunc d))) /\
  (~ (0 <= r <= 4294967295 /\ -2147483648 <= d <= 2147483647)%R -> packCurrentPosition NumR now p = Throw).
Proof.
  intros now p r d.
  assert (Er : fmul NumR (ra p) (ra_scale NumR) = r) by (unfold ra_scale, r; cbn [fmul fdiv fZ NumR]; change (F NumR) with R; field).
  assert (Ed : fmul NumR (dec p) (dec_scale NumR) = d) by (unfold dec_scale, d; cbn [fmul fdiv fZ NumR]; change (F NumR) with R; field).
  split.
  - intros [H1 H2]. apply pack_words; [rewrite Er|rewrite Ed]; apply write32_R; assumption.
  - intros H. unfold packCurrentPosition. rewrite Er, Ed. unfold writeUInt32LE, writeInt32LE.
    destruct (Rlt_or_le r 0) as [K|K]; [rewrite write32_R_throw by (left; exact K); reflexivity|].
    destruct (Rlt_or_le 4294967295 r) as [K'|K']; [rewrite write32_R_throw by (right; exact K'); reflexivity|].
    rewrite write32_R by (split; assumption). cbn [jbind].
    rewrite write32_R_throw; [reflexivity|]. destruct (Rlt_or_le d (-2147483648)); [left; assumption|].
    destruct (Rlt_or_le 2147483647 d); [right; assumption|]. exfalso. tauto.
Qed.
Print Assumptions C98_pack_exactly.
(** ... so every RA of [0,24) minus one unit and every declination is sent, cut to the unit below *)
Theorem C98_every_sky_position : forall now (p : equatorial NumR), (0 <= ra p <= 24 - 24 / 4294967296)%R -> (-90 <= dec p <= 90)%R ->
  exists r d, packCurrentPosition NumR now p = Ret (current_position (now * 1000) r d) /\
    (Rabs (IZR r * 24 / 4294967296 - ra p) < 24 / 4294967296)%R /\ (Rabs (IZR d * 360 / 4294967296 - dec p) < 360 / 4294967296)%R.
Proof.
  intros now p H1 H2. destruct (C98_pack_exactly now p) as [E _].
  exists (Ztrunc (ra p * 4294967296 / 24)), (Ztrunc (dec p * 4294967296 / 360)).
  assert (T : forall x, (Rabs (IZR (Ztrunc x) - x) < 1)%R).
  { intros x. destruct (Rle_or_lt 0 x).
    - rewrite Ztrunc_floor by assumption. pose proof (Zfloor_lb x). pose proof (Zfloor_ub x). apply Rabs_def1; lra.
    - rewrite Ztrunc_ceil by lra. pose proof (Zceil_lb x). pose proof (Zceil_ub x). apply Rabs_def1; lra. }
  change (F NumR) with R in *. split; [apply E; lra|].
  pose proof (T (ra p * 4294967296 / 24)%R) as A. pose proof (T (dec p * 4294967296 / 360)%R) as B.
  apply Rabs_def2 in A. apply Rabs_def2 in B. split; apply Rabs_def1; lra.
Qed.
Print Assumptions C98_every_sky_position.

(** ** C100: false: right ascensions of 24 h and more are not wrapped.  Looking east to the horizon at the
    equator at a sidereal time of 270 degrees or more, fromHorizontalPosition yields a position that
    packCurrentPosition cannot send. *)
Lemma east_ra t lst : (0 <= lst)%R -> ra (position NumR (fromHorizontalPosition NumR TrigR t 90%R 0%R 0%R lst)) = ((lst + 90) / 15)%R.
Proof.
  intros Hl. unfold fromHorizontalPosition. cbv zeta. cbn [position ra].
  unfold js_rad, js_deg, js_degToHours. cbn [fmul fdiv fZ fneg fadd fsub fsqrt feq flt NumR tpi tsin tcos tatan2 TrigR].
  pose proof PI_RGT_0 as HP. change (F NumR) with R in *.
  replace (90 * PI / 180)%R with (PI / 2)%R by field. replace (0 * PI / 180)%R with 0%R by field.
  rewrite sin_PI2, cos_PI2, sin_0, cos_0.
  replace (- 0 * 1 * 0 + 0 * 1)%R with 0%R by ring. replace (- (1) * 1)%R with (-1)%R by ring.
  replace (0 * 0 + -1 * -1)%R with 1%R by ring. rewrite sqrt_1.
  rewrite Req_bool_false by lra.
  unfold atan2R. destruct (Rlt_dec 0 0); [lra|]. destruct (Rlt_dec 0 (-1)); [lra|]. destruct (Rlt_dec (-1) 0); [|lra].
  replace ((lst - - (PI / 2) / PI * 180) / 360 * 24)%R with ((lst + 90) / 15)%R by (field; lra).
  rewrite Rlt_bool_false by lra. reflexivity.
Qed.
Theorem C100_every_computed_position_sent_refuted : forall now t lst, (270 <= lst)%R ->
  packCurrentPosition NumR now (position NumR (fromHorizontalPosition NumR TrigR t 90%R 0%R 0%R lst)) = Throw.
Proof.
  intros now t lst H. apply C98_pack_exactly. rewrite east_ra by lra. intros [[_ K] _]. change (F NumR) with R in *. lra.
Qed.
Print Assumptions C100_every_computed_position_sent_refuted.

(** ** C101: NexStar requests *)
(** everything this server answers *)
Inductive node_answers (now : clock) : list Z -> list Z -> Prop :=
| NA_echo c : (48 <= c <= 57 \/ 65 <= c <= 90 \/ 97 <= c <= 122) -> node_answers now [75; c] [c; 35]
| NA_version : node_answers now [86] [4; 10; 35]
| NA_device d : In d [0x10; 0x11; 0xb0; 0xb2] -> node_answers now [80; 1; d; 0xfe; 0; 0; 0; 2] [1; 0; 35]
| NA_model : node_answers now [109] [12; 35]
| NA_location : node_answers now [119] [48; 15; 41; 0; 10; 59; 1; 0; 35]
| NA_position : node_answers now [101] [51; 52; 65; 66; 48; 53; 48; 48; 44; 49; 50; 67; 69; 48; 53; 48; 48; 35]
| NA_time : node_answers now [104] [c_h now; c_m now; c_s now; c_mon now; c_day now; c_year now - 2000; 1; 0; 35]
| NA_goto : node_answers now [76] [0; 35]
| NA_aligned : node_answers now [74] [0; 35]
| NA_tracking : node_answers now [116] [1; 35]
| NA_sync r : node_answers now (115 :: r) [35].
Lemma alnum_iff c : alnum c = true <-> (48 <= c <= 57 \/ 65 <= c <= 90 \/ 97 <= c <= 122).
Proof. unfold alnum. rewrite !orb_true_iff, !andb_true_iff, !Z.leb_le. lia. Qed.
Theorem C101_node_reply_exactly : forall now req text, text <> [] -> (node_nexstar now req = text <-> node_answers now req text).
Proof.
  intros now req text Ht. split.
  - intros E. subst text. destruct req as [|k [|c r]]; [contradiction Ht; reflexivity| |].
    + unfold node_nexstar in *. revert Ht.
      repeat match goal with |- context [if k =? ?x then _ else _] => destruct (Z.eqb_spec k x); [subst k; intros _; constructor|] end.
      intros K; contradiction K; reflexivity.
    + assert (S : k = 115 -> node_nexstar now (k :: c :: r) = [35]).
      { intros ->. destruct r as [|? [|? [|? [|? [|? [|? [|? ?]]]]]]]; reflexivity. }
      destruct (Z.eqb_spec k 115) as [E|N115]; [rewrite S by exact E; subst k; constructor|]. clear S.
      destruct r as [|x r].
      { unfold node_nexstar in *. destruct (Z.eqb_spec k 75); cbn [andb] in *.
        - destruct (alnum c) eqn:Ea; [subst k; apply alnum_iff in Ea; constructor; exact Ea|].
          destruct (Z.eqb_spec k 115); [congruence|contradiction Ht; reflexivity].
        - destruct (Z.eqb_spec k 115); [congruence|contradiction Ht; reflexivity]. }
      assert (Hd : node_nexstar now (k :: c :: x :: r) = if is_device (k :: c :: x :: r) then [1; 0; 35] else []).
      { unfold node_nexstar. destruct (Z.eqb_spec k 115); [congruence|reflexivity]. }
      rewrite Hd in *. destruct (is_device (k :: c :: x :: r)) eqn:E; [|contradiction Ht; reflexivity].
      destruct r as [|a3 [|a4 [|a5 [|a6 [|a7 [|a8 r]]]]]]; try discriminate. cbn [is_device] in E.
      rewrite !andb_true_iff, !orb_true_iff, !Z.eqb_eq in E. destruct E as (((((((-> & ->) & Ex) & ->) & ->) & ->) & ->) & ->).
      constructor. simpl. intuition.
  - intros H. destruct H; try reflexivity.
    + apply alnum_iff in H. unfold node_nexstar. rewrite H. reflexivity.
    + simpl in H. intuition; subst; reflexivity.
    + destruct r as [|? [|? [|? [|? [|? [|? [|? [|? ?]]]]]]]]; reflexivity.
Qed.
Print Assumptions C101_node_reply_exactly.
(** Requests whose answer depends on no state ('h' time, 'J' aligned, 'w' location, 'e' position and 's' sync do)
    get the very same bytes from the firmware. *)
Theorem C101_same_as_firmware : forall N T pf oor qsort m9 junk (t : telescope N) (g : gnss N) now req extra resp max,
  bytes_ok req -> node_nexstar now req <> [] -> ~ In (hd 0 req) [104; 74; 119; 101; 115] -> 3 < max -> max <= Z.of_nat (length resp) ->
  M_NexStar.handleRequest N T pf oor qsort m9 junk t g (req ++ extra) (Z.of_nat (length req)) resp max =
    Ok (Z.of_nat (length (node_nexstar now req)), written (node_nexstar now req) resp, t).
Proof.
  intros N T pf oor qsort m9 junk t g now req extra resp max Hb Hne Hn H1 H2.
  assert (Ha : answers t g req (node_nexstar now req) /\ (length (node_nexstar now req) <= 3)%nat).
  { destruct (C101_node_reply_exactly now req _ Hne) as [K _]. specialize (K eq_refl). revert K. generalize (node_nexstar now req). intros text K.
    destruct K; cbn [hd] in Hn; try (exfalso; apply Hn; simpl; tauto); (split; [constructor; assumption|cbn; lia]). }
  destruct Ha as [Ha Hl]. apply Properties_NexStar.C08_documented_reply; [exact Ha|exact Hb|lia|exact H2].
Qed.
Print Assumptions C101_same_as_firmware.
Example C101_nonvacuous : node_nexstar (Clock 1 2 3 4 5 2022) [75; 120] = [120; 35] /\ bytes_ok [75; 120] /\ ~ In (hd 0 [75; 120]) [104; 74; 119; 101; 115].
Proof. split; [reflexivity|]. split; [repeat constructor; cbn; lia|cbn; lia]. Qed.

(** ** C102: the firmware and the Node server read the same position from a goto message *)
Theorem C102_same_position : forall (data : list Z) (out : unpack_out NumR), bytes_ok data -> (20 <= length data)%nat ->
  field 0 2 data = 20 -> field 2 2 data = 0 ->
  exists o m, unpackPosition NumR true data (Z.of_nat (length data)) out = Ok (true, o) /\ unpackGoto NumR data = Ret m /\
    (o_ra o = 15 * go_ra NumR m)%R /\
    (o_dec o = go_dec NumR m \/ o_dec o = go_dec NumR m + 360)%R.
Proof.
  intros data out Hb HL F0 F2.
  destruct (unpack_ok NumR data Hb HL) as (l & ty & us & E).
  rewrite (unpack_spec NumR true data (Z.of_nat (length data)) out Hb ltac:(lia) ltac:(lia)).
  replace (accepted data (Z.of_nat (length data))) with true.
  2:{ unfold accepted. rewrite F0, F2. symmetry. rewrite !andb_true_iff, !Z.leb_le. split; [split|]; [lia|lia|reflexivity]. }
  eexists. eexists. split; [reflexivity|]. split; [exact E|]. cbn [o_ra o_dec go_ra go_dec]. rewrite !decode_R.
  unfold ra_scale, dec_scale, unit_deg. cbn [fdiv fZ NumR]. split; [change (F NumR) with R; field|].
  unfold signed32. destruct (field 16 4 data <? 2 ^ 31); [left; change (F NumR) with R; field|right].
  rewrite minus_IZR. change (IZR (2 ^ 32)) with 4294967296%R. change (F NumR) with R. field.
Qed.
Print Assumptions C102_same_position.
(** everything the server takes from a goto message of at least 20 bytes: length and type as signed 16-bit numbers,
    the time in whole milliseconds from the 64-bit microseconds, the two angles *)
Definition as_signed16 (w : Z) : Z := if w <? 2 ^ 15 then w else w - 2 ^ 16.
Lemma two_bytes data k : (k + 1 < length data)%nat -> field k 2 data = nth k data 0 + 256 * nth (k + 1) data 0.
Proof.
  intros H. unfold field. revert data H. induction k as [|k IH]; intros data H.
  - destruct data as [|a [|b r]]; cbn [length] in H; try lia. cbn [firstn skipn le_value nth Nat.add]. lia.
  - destruct data as [|a r]; cbn [length] in H; [lia|]. cbn [skipn Nat.add nth]. apply IH. lia.
Qed.
Lemma split_field data k : field k 8 data = field k 4 data + 2 ^ 32 * field (k + 4) 4 data.
Proof.
  unfold field. assert (E : forall (l : list Z) k, skipn (k + 4) l = skipn 4 (skipn k l)) by (clear; intros l k; revert l; induction k as [|k IH]; intros l; [reflexivity|destruct l; [reflexivity|apply IH]]).
  rewrite E. generalize (skipn k data). clear. intros l.
  destruct l as [|a [|b [|c [|d l]]]]; cbn [firstn skipn le_value]; try lia.

Qed.
Theorem C102_decoded_exactly : forall (data : list Z), bytes_ok data -> (20 <= length data)%nat ->
  exists m, unpackGoto NumR data = Ret m /\
    go_length NumR m = as_signed16 (field 0 2 data) /\ go_type NumR m = as_signed16 (field 2 2 data) /\
    1000 * go_millis NumR m <= field 4 8 data < 1000 * go_millis NumR m + 1000 /\
    (go_ra NumR m = IZR (field 12 4 data) * 24 / 4294967296)%R /\ (go_dec NumR m = IZR (as_signed (field 16 4 data)) * 360 / 4294967296)%R.
Proof.
  intros data Hb H. unfold unpackGoto, readInt16LE, readInt32LE, readBigUInt64LE.
  rewrite !read4 by (auto; lia). rewrite !jrd_ok by lia. cbn [jbind]. eexists. split; [reflexivity|].
  cbn [go_length go_type go_millis go_ra go_dec]. rewrite !two_bytes by lia. cbn [Nat.add].
  split; [unfold as_signed16; rewrite (Z.mul_comm 256); reflexivity|]. split; [unfold as_signed16; rewrite (Z.mul_comm 256); reflexivity|].
  split.
  - rewrite (split_field data 4). cbn [Nat.add]. rewrite (Z.mul_comm (2 ^ 32)). generalize (field 4 4 data + field 8 4 data * 2 ^ 32). intros u.
    pose proof (Z.div_mod u 1000 ltac:(lia)). pose proof (Z.mod_pos_bound u 1000 ltac:(lia)). lia.
  - unfold ra_scale, dec_scale, as_signed. cbn [fdiv fZ NumR]. change (F NumR) with R. split; field.
Qed.
Print Assumptions C102_decoded_exactly.
Example C102_nonvacuous : field 0 2 (goto_message 1000 0x28f864fb 0xd98e5000) = 20 /\ field 2 2 (goto_message 1000 0x28f864fb 0xd98e5000) = 0 /\
  length (goto_message 1000 0x28f864fb 0xd98e5000) = 20%nat.
Proof. repeat split. Qed.


(** ** C109: the Node server and the firmware compute the same place in the sky (exact arithmetic) *)
Theorem C109_same_sky_position : forall t (azimuth altitude latitude lst : R),
  let q := position NumR (fromHorizontalPosition NumR TrigR t azimuth altitude latitude lst) in
  let f := horizontalToEquatorial NumR TrigR azimuth altitude latitude lst in
  dec q = dec f /\ (exists k : Z, 15 * ra q = ra f + 360 * IZR k)%R /\
  ((0 <= lst < 360)%R -> (0 <= ra q < 36)%R).
Proof.
  intros t azimuth altitude latitude lst. cbv zeta. unfold fromHorizontalPosition, horizontalToEquatorial. cbv zeta. cbn [position ra dec].
  unfold js_rad, js_deg, js_degToHours, rad, deg, f_mod, rot_x, rot_y, rot_z.
  cbn [fmul fdiv fZ fneg fadd fsub fsqrt feq flt ffloor NumR tpi tsin tcos tatan2 TrigR]. change (F NumR) with R in *.
  pose proof PI_RGT_0 as HP.
  split; [unfold Rdiv; ring|].
  match goal with |- context [if ?b then ?z else atan2R ?y ?x] => set (ha := if b then z else atan2R y x) end.
  assert (Hha : (- PI < ha <= PI)%R).
  { subst ha. match goal with |- context [if ?b then _ else _] => destruct b end; [lra|apply P_Sky.atan2R_spec]. }
  clearbody ha.
  replace (ha * 180 / PI)%R with (ha / PI * 180)%R by (unfold Rdiv; ring).
  set (h := (lst - ha / PI * 180)%R). 
  assert (Hh : (0 <= lst < 360 -> -180 <= h < 540)%R).
  { intros Hl. assert (-1 < ha / PI <= 1)%R. { split; [apply Rmult_lt_reg_r with PI|apply Rmult_le_reg_r with PI]; try assumption; field_simplify; lra. } subst h. lra. }
  assert (E : (h / 360 * 24 = h / 15)%R) by field.
  split.
  - case Rlt_bool_spec; intros Hs.
    + exists (Zfloor (h / 360) + 1)%Z. rewrite plus_IZR. lra.
    + exists (Zfloor (h / 360)). lra.
  - intros Hl. specialize (Hh Hl). case Rlt_bool_spec; intros Hs; lra.
Qed.
Print Assumptions C109_same_sky_position.
Example C109_nonvacuous : (0 <= 180 < 360)%R.
Proof. lra. Qed.
