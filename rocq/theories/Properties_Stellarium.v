(** C04-C07: Stellarium telescope protocol. *)
From Verif Require Import Base Num M_Stellarium S_Stellarium P_Stellarium P_Stellarium2.
From Coq Require Import Reals Lra Floats.SpecFloat.
From Flocq Require Import Core.

(** ** C04 *)
Theorem C04_small_buffer_untouched : forall (N : Num) oor ra dec ts buffer bufferSize,
  bufferSize < 24 -> packPosition N oor ra dec ts buffer bufferSize = Ok (0, buffer).
Proof. exact pack_small. Qed.
Print Assumptions C04_small_buffer_untouched.

(** No out-of-bounds write when the buffer really has the announced size; the message has the
    documented layout and everything behind it is untouched.  Holds for every arithmetic. *)
Theorem C04_layout_and_frame : forall (N : Num) oor ra dec ts buffer n k buf,
  (24 <= length buffer)%nat -> 24 <= n ->
  packPosition N oor ra dec ts buffer n = Ok (k, buf) ->
  k = 24 /\ exists r d,
    to_u32 N oor (encode_expr N ra) = Ok r /\ to_u32 N oor (encode_expr N dec) = Ok d /\
    buf = current_position ts r d ++ skipn 24 buffer.
Proof. exact pack_layout. Qed.
Print Assumptions C04_layout_and_frame.

(** The only way packPosition can misbehave is the float -> uint32_t conversion. *)
Theorem C04_only_conversions_can_fail : forall (N : Num) oor ra dec ts buffer n,
  (24 <= length buffer)%nat -> 24 <= n ->
  packPosition N oor ra dec ts buffer n =
  (do r <- to_u32 N oor (encode_expr N ra);
   do d <- to_u32 N oor (encode_expr N dec);
   Ok (24, current_position ts r d ++ skipn 24 buffer)).
Proof. exact pack_spec. Qed.
Print Assumptions C04_only_conversions_can_fail.

Example C04_nonvacuous :
  packPosition NumSF strict_iso (sf_ofZ 180) (sf_ofZ 45) 0x0102030405060708 (repeat 0xEE 26) 26
  = Ok (24, [24;0; 0;0; 8;7;6;5;4;3;2;1; 0;0;0;0x80; 0;0;0;0x20; 0;0;0;0; 0xEE;0xEE]).
Proof. vm_compute. reflexivity. Qed.

(** ** C05 *)
(** [data] is exactly the memory the caller owns, [dataLength] the announced length. *)
Theorem C05_accepts_exactly : forall (N : Num) want data dataLength out,
  bytes_ok data -> (2 <= length data)%nat -> dataLength <= Z.of_nat (length data) ->
  unpackPosition N want data dataLength out =
  Ok (if (20 <=? field 0 2 data) && (field 0 2 data <=? dataLength) && (field 2 2 data =? 0)
      then (true, {| o_ra := decode_expr N (field 12 4 data); o_dec := decode_expr N (field 16 4 data);
                     o_ts := if want then field 4 8 data / 1000 else o_ts out |})
      else (false, out)).
Proof. exact unpack_spec. Qed.
Print Assumptions C05_accepts_exactly.
Definition show_out (r : res (bool * unpack_out NumSF)) : option (bool * spec_float * spec_float * Z) :=
  match r with Ok (b, o) => Some (b, o_ra o, o_dec o, o_ts o) | UB _ => None end.
Definition zero_out : unpack_out NumSF := {| o_ra := sf_ofZ 0 : F NumSF; o_dec := sf_ofZ 0; o_ts := 0 |}.
Example C05_nonvacuous :
  show_out (unpackPosition NumSF true (goto_message 5000 0x40000000 0x20000000) 20 zero_out)
  = Some (true, sf_ofZ 90, sf_ofZ 45, 5) /\
  show_out (unpackPosition NumSF true (goto_message 5000 0x40000000 0x20000000) 19 zero_out)
  = Some (false, sf_ofZ 0, sf_ofZ 0, 0).
Proof. split; vm_compute; reflexivity. Qed.

(** The header is read before the length check: with fewer than 2 bytes of memory the read is out of
    bounds whatever length is announced. *)
Theorem C63_header_read_refuted : forall (N : Num) want data dataLength out,
  (length data < 2)%nat -> unpackPosition N want data dataLength out = UB OobRead.
Proof. exact unpack_short. Qed.
Print Assumptions C63_header_read_refuted.
Example C05_refuted_nonvacuous : exists data, (length data < 2)%nat /\ bytes_ok data /\ data <> [].
Proof. exists [20]. repeat split; [simpl; lia|apply bytes_okb_ok; reflexivity|discriminate]. Qed.

(** ** C06 *)
(** wire -> double -> wire is exact for all 2^32 words, with IEEE rounding at every step *)
Theorem C06_wire_roundtrip_ieee : forall oor t ts r d buffer out,
  0 <= t < 2 ^ 64 -> 0 <= r < 2 ^ 32 -> 0 <= d < 2 ^ 32 -> (24 <= length buffer)%nat ->
  exists o,
    unpackPosition NumB true (goto_message t r d) 20 out = Ok (true, o) /\
    packPosition NumB oor (o_ra o) (o_dec o) ts buffer (Z.of_nat (length buffer)) =
      Ok (24, current_position ts r d ++ skipn 24 buffer).
Proof. exact wire_message_roundtrip. Qed.
Print Assumptions C06_wire_roundtrip_ieee.

(** the decoded angle is exactly word * 180/2^31 *)
Theorem C06_decode_is_exact_ieee : forall n, 0 <= n < 2 ^ 32 ->
  decode_expr NumB n = (IZR n * unit_deg)%R.
Proof. exact decode_exact. Qed.
Print Assumptions C06_decode_is_exact_ieee.

Theorem C06_message_roundtrip_ieee : forall oor ra dec ts buffer out,
  is_b64 ra -> is_b64 dec ->
  (0 <= ra <= 360 - unit_deg)%R -> (0 <= dec <= 360 - unit_deg)%R ->
  0 <= ts < 2 ^ 64 -> (24 <= length buffer)%nat -> bytes_ok buffer ->
  exists buf o,
    packPosition NumB oor ra dec ts buffer (Z.of_nat (length buffer)) = Ok (24, buf) /\
    unpackPosition NumB true buf 24 out = Ok (true, o) /\
    (Rabs (o_ra o - ra) <= unit_deg * (1 / 2 + bpow radix2 (-19)))%R /\
    (Rabs (o_dec o - dec) <= unit_deg * (1 / 2 + bpow radix2 (-19)))%R /\
    o_ts o = ts / 1000.
Proof. exact roundtrip_message_B. Qed.
Print Assumptions C06_message_roundtrip_ieee.
Example C06_nonvacuous : is_b64 90 /\ (0 <= 90 <= 360 - unit_deg)%R /\ (24 <= length (repeat 0%Z 24))%nat
  /\ bytes_ok (repeat 0 24).
Proof.
  split; [|split; [unfold unit_deg; lra|split; [simpl; lia|]]].
  - apply generic_format_FLT. exists (Float radix2 90 0); unfold F2R; simpl; try lia; try lra.
  - apply bytes_okb_ok; reflexivity.
Qed.

Theorem C06_value_roundtrip_exact_reals : forall oor x, (0 <= x < 360 - unit_deg / 2)%R ->
  exists n, to_u32 NumR oor (encode_expr NumR x) = Ok n /\ 0 <= n < 2 ^ 32 /\
            (Rabs (decode_expr NumR n - x) <= unit_deg / 2)%R.
Proof. exact value_roundtrip_R. Qed.
Print Assumptions C06_value_roundtrip_exact_reals.

(** On a platform whose out-of-range conversion wraps modulo 2^32, every angle (negative declinations
    in particular) survives modulo 360 degrees. *)
Theorem C06_value_roundtrip_mod_360_when_wrapping : forall x,
  exists n k, to_u32 NumR wrap_u32 (encode_expr NumR x) = Ok n /\ 0 <= n < 2 ^ 32 /\
            (Rabs (decode_expr NumR n + 360 * IZR k - x) <= unit_deg / 2)%R.
Proof. exact value_roundtrip_wrap. Qed.
Print Assumptions C06_value_roundtrip_mod_360_when_wrapping.

(** ** C07 *)
(** Under ISO C++ the conversion is defined exactly on [-unit/2, 360-unit/2). *)
Theorem C07_defined_exactly : forall x,
  (exists n, to_u32 NumR strict_iso (encode_expr NumR x) = Ok n) <->
  (- unit_deg / 2 <= x < 360 - unit_deg / 2)%R.
Proof. exact strict_defined_iff. Qed.
Print Assumptions C07_defined_exactly.

(** Declination -45 and the right ascension just below 360 both hit an undefined conversion
    (executable binary64). *)
Theorem C64_every_position_encodable_refuted :
  to_u32 NumSF strict_iso (encode_expr NumSF (sf_ofZ (-45))) = UB BadConv /\
  SFltb sf_below_360 (sf_ofZ 360) = true /\
  to_u32 NumSF strict_iso (encode_expr NumSF sf_below_360) = UB BadConv.
Proof. exact strict_refuted_sf. Qed.
Print Assumptions C64_every_position_encodable_refuted.
