(** Message-level consequences for the Stellarium codec. *)
From Verif Require Import Base Num M_Stellarium S_Stellarium P_Stellarium.
From Coq Require Import Reals Lra Floats.SpecFloat.
From Flocq Require Import Core.

Lemma pack_layout N oor ra dec ts buffer n k buf :
  (24 <= length buffer)%nat -> 24 <= n ->
  packPosition N oor ra dec ts buffer n = Ok (k, buf) ->
  k = 24 /\ exists r d,
    to_u32 N oor (encode_expr N ra) = Ok r /\ to_u32 N oor (encode_expr N dec) = Ok d /\
    buf = current_position ts r d ++ skipn 24 buffer.
Proof.
  intros Hl Hn. rewrite pack_spec by auto.
  destruct (to_u32 N oor (encode_expr N ra)) as [r|]; [|discriminate].
  destruct (to_u32 N oor (encode_expr N dec)) as [d|]; [|discriminate].
  cbn [bind]. intros H; inversion H; subst. eauto 10.
Qed.

Lemma current_position_length ts r d : length (current_position ts r d) = 24%nat.
Proof. reflexivity. Qed.

(** An encoded position is itself an acceptable input of the decoder. *)
Lemma current_position_bytes ts r d : bytes_ok (current_position ts r d).
Proof. unfold current_position. repeat (apply Forall_app; split); apply le_bytes_nonneg. Qed.

Lemma current_position_fields t r d rest :
  let data := current_position t r d ++ rest in
  field 0 2 data = 24 /\ field 2 2 data = 0 /\ field 4 8 data = t mod 256 ^ 8 /\
  field 12 4 data = r mod 256 ^ 4 /\ field 16 4 data = d mod 256 ^ 4.
Proof.
  unfold field, current_position.
  split; [reflexivity|]. split; [reflexivity|].
  repeat split.
  - change (firstn 8 (skipn 4 _)) with (le_bytes 8 t). apply (le_value_bytes 8).
  - change (firstn 4 (skipn 12 _)) with (le_bytes 4 r). apply (le_value_bytes 4).
  - change (firstn 4 (skipn 16 _)) with (le_bytes 4 d). apply (le_value_bytes 4).
Qed.

Lemma unpack_packed N want t r d rest out :
  bytes_ok rest -> 0 <= t < 2 ^ 64 -> 0 <= r < 2 ^ 32 -> 0 <= d < 2 ^ 32 ->
  unpackPosition N want (current_position t r d ++ rest) 24 out =
  Ok (true, {| o_ra := decode_expr N r; o_dec := decode_expr N d; o_ts := if want then t / 1000 else o_ts out |}).
Proof.
  intros Hb Ht Hr Hd.
  rewrite unpack_spec.
  - destruct (current_position_fields t r d rest) as (F1 & F2 & F3 & F4 & F5).
    unfold accepted. rewrite F1, F2, F3, F4, F5.
    rewrite !Z.mod_small by lia. reflexivity.
  - apply Forall_app; split; [apply current_position_bytes|auto].
  - rewrite app_length, current_position_length; lia.
  - rewrite app_length, current_position_length; lia.
Qed.

Lemma to_u32_range N oor x r : to_u32 N oor x = Ok r ->
  (forall z w, oor z = Ok w -> 0 <= w < 2 ^ 32) -> 0 <= r < 2 ^ 32.
Proof.
  unfold to_u32. destruct (ftrunc N x) as [z|]; [|discriminate].
  destruct ((0 <=? z) && (z <? 4294967296)) eqn:E; intros H Ho.
  - inversion H; subst. apply andb_true_iff in E. destruct E as [E1 E2].
    apply Z.leb_le in E1. apply Z.ltb_lt in E2. lia.
  - eauto.
Qed.

(** a goto message decoded and re-encoded carries the same two words *)
Lemma wire_message_roundtrip oor t ts r d buffer out :
  0 <= t < 2 ^ 64 -> 0 <= r < 2 ^ 32 -> 0 <= d < 2 ^ 32 -> (24 <= length buffer)%nat ->
  exists o,
    unpackPosition NumB true (goto_message t r d) 20 out = Ok (true, o) /\
    packPosition NumB oor (o_ra o) (o_dec o) ts buffer (Z.of_nat (length buffer)) =
      Ok (24, current_position ts r d ++ skipn 24 buffer).
Proof.
  intros Ht Hr Hd Hl.
  exists {| o_ra := decode_expr NumB r : F NumB; o_dec := decode_expr NumB d; o_ts := t / 1000 |}.
  split.
  - rewrite unpack_spec.
    + destruct (goto_fields t r d) as (F1 & F2 & F3 & F4 & F5).
      unfold accepted. rewrite F1, F2, F3, F4, F5. rewrite !Z.mod_small by lia. reflexivity.
    + unfold goto_message. repeat (apply Forall_app; split); apply le_bytes_nonneg.
    + unfold goto_message. rewrite !app_length, !le_bytes_length. lia.
    + unfold goto_message. rewrite !app_length, !le_bytes_length. lia.
  - rewrite pack_spec by (auto; lia). cbn [o_ra o_dec].
    rewrite !wire_roundtrip_B by auto. reflexivity.
Qed.

Open Scope R_scope.

Lemma roundtrip_message_B oor ra dec ts buffer out :
  is_b64 ra -> is_b64 dec -> 0 <= ra <= 360 - unit_deg -> 0 <= dec <= 360 - unit_deg ->
  (0 <= ts < 2 ^ 64)%Z -> (24 <= length buffer)%nat -> bytes_ok buffer ->
  exists buf o,
    packPosition NumB oor ra dec ts buffer (Z.of_nat (length buffer)) = Ok (24%Z, buf) /\
    unpackPosition NumB true buf 24 out = Ok (true, o) /\
    Rabs (o_ra o - ra) <= unit_deg * (1 / 2 + bpow radix2 (-19)) /\
    Rabs (o_dec o - dec) <= unit_deg * (1 / 2 + bpow radix2 (-19)) /\
    o_ts o = (ts / 1000)%Z.
Proof.
  intros Hfr Hfd Hr Hd Ht Hl Hb.
  destruct (value_roundtrip_B oor ra Hfr Hr) as (r & Er & Rr & Ar).
  destruct (value_roundtrip_B oor dec Hfd Hd) as (d & Ed & Rd & Ad).
  exists (current_position ts r d ++ skipn 24 buffer).
  exists {| o_ra := decode_expr NumB r : F NumB; o_dec := decode_expr NumB d; o_ts := (ts / 1000)%Z |}.
  split; [|split].
  - rewrite pack_spec by (auto; lia). rewrite Er, Ed. reflexivity.
  - rewrite unpack_packed; auto. clear - Hb.
    rewrite <- (firstn_skipn 24 buffer) in Hb. apply Forall_app in Hb. apply Hb.
  - cbn [o_ra o_dec o_ts]. auto.
Qed.

(** With the wrap-around conversion, every real number survives modulo 360. *)
Lemma value_roundtrip_wrap x :
  exists n k, to_u32 NumR wrap_u32 (encode_expr NumR x) = Ok n /\ (0 <= n < 2 ^ 32)%Z /\
            Rabs (decode_expr NumR n + 360 * IZR k - x) <= unit_deg / 2.
Proof.
  set (y := 1 / 2 + x * 2147483648 / 180).
  exists (Zfloor y mod 4294967296)%Z, (Zfloor y / 4294967296)%Z.
  assert (Hm : (0 <= Zfloor y mod 4294967296 < 2 ^ 32)%Z) by (apply Z.mod_pos_bound; lia).
  split; [|split; [exact Hm|]].
  - unfold to_u32, encode_expr, NumR; cbn [fZ fdiv fmul fadd ffloor fq ftrunc].
    rewrite Ztrunc_IZR. fold y.
    destruct ((0 <=? Zfloor y)%Z && (Zfloor y <? 4294967296)%Z) eqn:E; [|reflexivity].
    apply andb_true_iff in E. destruct E as [E1 E2]. apply Z.leb_le in E1. apply Z.ltb_lt in E2.
    rewrite Z.mod_small by lia. reflexivity.
  - rewrite decode_R. unfold unit_deg.
    pose proof (Zfloor_lb y) as Hlb. pose proof (Zfloor_ub y) as Hub.
    assert (E : IZR (Zfloor y) = 4294967296 * IZR (Zfloor y / 4294967296) + IZR (Zfloor y mod 4294967296)).
    { rewrite <- mult_IZR, <- plus_IZR. f_equal. apply Z.div_mod. lia. }
    apply Rabs_le. unfold y in *. lra.
Qed.

(** Exactly which reals are converted without undefined behaviour. *)
Lemma strict_defined_iff x :
  (exists n, to_u32 NumR strict_iso (encode_expr NumR x) = Ok n) <-> - unit_deg / 2 <= x < 360 - unit_deg / 2.
Proof.
  unfold to_u32, encode_expr, NumR, unit_deg; cbn [fZ fdiv fmul fadd ffloor fq ftrunc].
  rewrite Ztrunc_IZR. set (y := 1 / 2 + x * 2147483648 / 180).
  pose proof (Zfloor_lb y) as Hlb. pose proof (Zfloor_ub y) as Hub.
  split.
  - intros [n H]. destruct ((0 <=? Zfloor y)%Z && (Zfloor y <? 4294967296)%Z) eqn:E; [|discriminate].
    apply andb_true_iff in E. destruct E as [E1 E2]. apply Z.leb_le in E1. apply Z.ltb_lt in E2.
    assert (E1' : 0 <= IZR (Zfloor y)) by (apply IZR_le in E1; exact E1).
    assert (E2' : IZR (Zfloor y) + 1 <= 4294967296).
    { rewrite <- plus_IZR. apply IZR_le. lia. }
    unfold y in *. lra.
  - intros Hx. exists (Zfloor y).
    replace ((0 <=? Zfloor y)%Z && (Zfloor y <? 4294967296)%Z) with true; [reflexivity|].
    symmetry. apply andb_true_iff. split.
    + apply Z.leb_le. apply Zfloor_lub. unfold y; lra.
    + apply Z.ltb_lt. apply lt_IZR. unfold y in *; lra.
Qed.
Close Scope R_scope.

(** the largest double below 360 *)
Definition sf_below_360 : spec_float := S754_finite false (360 * 2 ^ 44 - 1) (-44).

Lemma strict_refuted_sf :
  to_u32 NumSF strict_iso (encode_expr NumSF (sf_ofZ (-45))) = UB BadConv /\
  SFltb sf_below_360 (sf_ofZ 360) = true /\
  to_u32 NumSF strict_iso (encode_expr NumSF sf_below_360) = UB BadConv.
Proof. vm_compute. auto. Qed.
