(** Proofs about the Node.js server. *)
From Verif Require Import Base Num M_Telescope M_Node S_Stellarium P_Stellarium P_Round M_Stellarium.
From Coq Require Import Reals Lra Psatz.
From Flocq Require Import Core.
Open Scope Z_scope.

Lemma bytes4_le x : bytes4 x = le_bytes 4 x.
Proof. rewrite le4. reflexivity. Qed.
Lemma le_bytes_mod n x : le_bytes n (x mod 256 ^ Z.of_nat n) = le_bytes n x.
Proof.
  revert x. induction n as [|n IH]; intros x; [reflexivity|].
  rewrite Nat2Z.inj_succ, Z.pow_succ_r by lia. cbn [le_bytes].
  assert (0 < 256 ^ Z.of_nat n) by (apply Z.pow_pos_nonneg; lia).
  rewrite Z.rem_mul_r by lia. f_equal.
  - rewrite Z.mul_comm, Z.mod_add, Z.mod_mod by lia. reflexivity.
  - replace ((x mod 256 + 256 * ((x / 256) mod 256 ^ Z.of_nat n)) / 256) with ((x / 256) mod 256 ^ Z.of_nat n); [apply IH|].
    rewrite Z.mul_comm, Z.div_add by lia. rewrite (Z.div_small (x mod 256) 256) by (apply Z.mod_pos_bound; lia). lia.
Qed.
Lemma le_bytes8 x : le_bytes 8 x = bytes4 x ++ bytes4 (Z.shiftr x 32).
Proof.
  rewrite !bytes4_le. rewrite Z.shiftr_div_pow2 by lia. cbn [le_bytes app]. rewrite !Z.div_div by lia. reflexivity.
Qed.

Lemma jrd_ok data i : (i < length data)%nat -> jrd data i = Ret (nth i data 0).
Proof. intros H. unfold jrd. rewrite (nth_error_nth' data 0) by exact H. reflexivity. Qed.
Lemma read4 data k : bytes_ok data -> (k + 3 < length data)%nat -> readUInt32LE data k = Ret (field k 4 data).
Proof.
  intros Hb H. unfold readUInt32LE. rewrite !jrd_ok by lia. cbn [jbind]. rewrite <- field4 by (auto; lia).
  rewrite !Z.shiftl_mul_pow2 by lia.
  pose proof (bytes_nth data k Hb ltac:(lia)). pose proof (bytes_nth data (k + 1) Hb ltac:(lia)).
  pose proof (bytes_nth data (k + 2) Hb ltac:(lia)). pose proof (bytes_nth data (k + 3) Hb ltac:(lia)).
  replace (S k) with (k + 1)%nat by lia. replace (S (k + 1)) with (k + 2)%nat by lia. replace (S (k + 2)) with (k + 3)%nat by lia.
  unfold is_byte, u32 in *. rewrite Z.mod_small by lia. reflexivity.
Qed.
Definition signed32 (w : Z) : Z := if w <? 2 ^ 31 then w else w - 2 ^ 32.
Lemma field_range data k n : bytes_ok data -> (k + n <= length data)%nat -> 0 <= field k n data < 256 ^ Z.of_nat n.
Proof.
  intros Hb H. unfold field.
  assert (B : bytes_ok (firstn n (skipn k data))).
  { unfold bytes_ok in *. rewrite Forall_forall in *. intros x Hx. apply Hb.
    rewrite <- (firstn_skipn k data). apply in_or_app. right. rewrite <- (firstn_skipn n (skipn k data)). apply in_or_app. auto. }
  pose proof (le_value_range _ B) as R. rewrite firstn_length, skipn_length in R. rewrite Nat.min_l in R by lia. exact R.
Qed.
Lemma unpack_ok N data : bytes_ok data -> (20 <= length data)%nat ->
  exists l t us, unpackGoto N data = Ret (Goto N l t us (fdiv N (fZ N (field 12 4 data)) (ra_scale N))
                                     (fdiv N (fZ N (signed32 (field 16 4 data))) (dec_scale N))).
Proof.
  intros Hb H. unfold unpackGoto, readInt16LE, readInt32LE, readBigUInt64LE.
  rewrite !read4 by (auto; lia). rewrite !jrd_ok by lia. cbn [jbind]. eauto.
Qed.
Lemma signed32_range w : 0 <= w < 2 ^ 32 -> - 2 ^ 31 <= signed32 w < 2 ^ 31.
Proof. unfold signed32. destruct (Z.ltb_spec w (2 ^ 31)); lia. Qed.
Lemma signed32_bytes w : le_bytes 4 (signed32 w) = le_bytes 4 w.
Proof.
  unfold signed32. destruct (w <? 2 ^ 31); [reflexivity|]. rewrite <- (le_bytes_mod 4 w), <- (le_bytes_mod 4 (w - 2 ^ 32)).
  f_equal. change (256 ^ Z.of_nat 4) with (2 ^ 32). rewrite <- (Z.mod_add (w - 2 ^ 32) 1) by lia. f_equal. lia.
Qed.
Lemma nexstar_none cl data : (20 <= length data)%nat -> hd 0 data <> 115 -> node_nexstar cl data = [].
Proof.
  intros H Hh. do 9 (destruct data as [|? data]; [simpl in H; lia|]).
  cbn [hd] in Hh. unfold node_nexstar. cbn [is_device]. destruct (Z.eqb_spec z 115); [congruence|reflexivity].
Qed.

Open Scope R_scope.
(** exact arithmetic *)
Lemma write32_R min max (v : R) : (IZR min <= v <= IZR max) -> write32 NumR min max v = Ret (le_bytes 4 (Ztrunc v)).
Proof.
  intros [H1 H2]. unfold write32. cbn [flt fZ NumR ftrunc]. rewrite !Rlt_bool_false by lra. cbn [orb]. rewrite bytes4_le. reflexivity.
Qed.
Lemma write32_R_throw min max (v : R) : (v < IZR min \/ IZR max < v) -> write32 NumR min max v = Throw.
Proof.
  intros H. unfold write32. cbn [flt fZ NumR]. destruct H as [H|H].
  - rewrite (Rlt_bool_true v) by exact H. rewrite orb_true_r. reflexivity.
  - rewrite (Rlt_bool_true (IZR max)) by exact H. reflexivity.
Qed.
Lemma write32_B min max (v : R) : (Z.abs min < 2 ^ 53)%Z -> (Z.abs max < 2 ^ 53)%Z ->
  (IZR min <= v <= IZR max) -> write32 NumB min max v = Ret (le_bytes 4 (Ztrunc v)).
Proof.
  intros B1 B2 [H1 H2]. unfold write32. cbn [flt fZ NumB ftrunc]. rewrite (b64_of_int min), (b64_of_int max) by assumption.
  rewrite !Rlt_bool_false by lra. cbn [orb]. rewrite bytes4_le. reflexivity.
Qed.
Lemma time_bytes now : bytes4 (now * 1000) ++ bytes4 (Z.shiftr (now * 1000) 32) = le_bytes 8 (now * 1000).
Proof. symmetry. apply le_bytes8. Qed.
Lemma pack_words N now p r d : writeUInt32LE N (fmul N (ra p) (ra_scale N)) = Ret (le_bytes 4 r) ->
  writeInt32LE N (fmul N (dec p) (dec_scale N)) = Ret (le_bytes 4 d) ->
  packCurrentPosition N now p = Ret (current_position (now * 1000) r d).
Proof.
  intros E1 E2. unfold packCurrentPosition. rewrite E1. cbn [jbind]. rewrite E2. cbn [jbind]. f_equal.
  unfold current_position. rewrite <- time_bytes. rewrite <- !app_assoc. reflexivity.
Qed.
Lemma Ztrunc_near (x : R) (n : Z) : Rabs (x - IZR n) < 1 -> (n - 1 <= Ztrunc x <= n + 1)%Z.
Proof.
  intros H. apply Rabs_def2 in H. destruct (Rle_or_lt 0 x) as [H0|H0].
  - rewrite Ztrunc_floor by exact H0. pose proof (Zfloor_lb x). pose proof (Zfloor_ub x). split; [apply Z.lt_succ_r|]; [|apply Z.lt_succ_r]; apply lt_IZR; rewrite ?succ_IZR, ?plus_IZR, ?minus_IZR; lra.
  - rewrite Ztrunc_ceil by lra. pose proof (Zceil_ub x). pose proof (Zceil_lb x). split; apply Z.lt_succ_r; apply lt_IZR; rewrite ?succ_IZR, ?plus_IZR, ?minus_IZR; lra.
Qed.

(** IEEE: one coordinate decoded, calibrated, corrected and encoded again *)
Definition chain (S p w : R) : R := b64 (b64 (p + b64 (b64 (w / S) - p)) * S).
Lemma chain_close (S p w : R) : 0 < S <= bpow radix2 28 -> Rabs (w / S) < 200 -> Rabs p <= 512 -> Rabs w <= bpow radix2 32 ->
  Rabs (chain S p w - w) < 1 / 2.
Proof.
  intros HS Hw Hp Hww. unfold chain.
  assert (P : forall e, bpow radix2 e > 0) by (intros; apply bpow_gt_0).
  simpl (bpow radix2 28) in *. simpl (bpow radix2 32) in *.
  pose proof (b64_error 8 (w / S) ltac:(lia)) as E1. simpl (bpow radix2 8) in E1. specialize (E1 ltac:(lra)).
  set (y := b64 (w / S)) in *. change (8 - 53)%Z with (-45)%Z in E1.
  apply Rabs_def2 in Hw. apply Rabs_le_inv in Hp. apply Rabs_le_inv in E1. apply Rabs_le_inv in Hww. simpl (bpow radix2 (-45)) in E1.
  pose proof (b64_error 10 (y - p) ltac:(lia)) as E2. simpl (bpow radix2 10) in E2. specialize (E2 ltac:(apply Rabs_le; lra)).
  set (d := b64 (y - p)) in *. apply Rabs_le_inv in E2. simpl in E2.
  pose proof (b64_error 10 (p + d) ltac:(lia)) as E3. simpl (bpow radix2 10) in E3. specialize (E3 ltac:(apply Rabs_le; lra)).
  set (q := b64 (p + d)) in *. apply Rabs_le_inv in E3. simpl in E3.
  assert (Q : Rabs (q - w / S) <= / 1000000000000) by (apply Rabs_le; lra).
  assert (QS : Rabs (q * S - w) <= 268435456 / 1000000000000).
  { replace (q * S - w) with ((q - w / S) * S) by (field; lra). rewrite Rabs_mult, (Rabs_pos_eq S) by lra.
    apply Rle_trans with (/ 1000000000000 * 268435456); [|lra]. apply Rmult_le_compat; try lra; apply Rabs_pos. }
  apply Rabs_le_inv in QS.
  pose proof (b64_error 33 (q * S) ltac:(lia)) as E4. simpl (bpow radix2 33) in E4. specialize (E4 ltac:(apply Rabs_le; lra)).
  simpl in E4. apply Rabs_le_inv in E4. apply Rabs_def1; lra.
Qed.
Lemma chain_zero (S p : R) : is_b64 p -> chain S p 0 = 0.
Proof.
  intros Hp. unfold chain. unfold Rdiv. rewrite Rmult_0_l.
  assert (Z0 : b64 0 = 0) by (apply round_0; apply valid_rnd_N). rewrite Z0.
  replace (0 - p) with (- p) by ring. assert (E : b64 (- p) = - p).
  { apply b64_id. unfold is_b64 in *. apply generic_format_opp. exact Hp. }
  rewrite E. replace (p + - p) with 0 by ring. rewrite Z0, Rmult_0_l. exact Z0.
Qed.
Lemma raS : 178956970 <= ra_scale NumB <= 178956971.
Proof.
  unfold ra_scale. cbn [fdiv fZ NumB]. rewrite (b64_of_int 0x80000000), (b64_of_int 12) by lia.
  split; [apply (b64_floor_ge _ 178956970)|apply (b64_le_int _ 178956971)]; try lia; lra.
Qed.
Lemma decS : 11930464 <= dec_scale NumB <= 11930465.
Proof.
  unfold dec_scale. cbn [fdiv fZ NumB]. rewrite (b64_of_int 0x40000000), (b64_of_int 90) by lia.
  split; [apply (b64_floor_ge _ 11930464)|apply (b64_le_int _ 11930465)]; try lia; lra.
Qed.
Lemma quot_lt (w S k lo : R) : 0 < lo <= S -> Rabs w <= k * lo -> 0 <= k -> Rabs (w / S) <= k.
Proof.
  intros HS Hw Hk. unfold Rdiv. rewrite Rabs_mult, (Rabs_pos_eq (/ S)) by (left; apply Rinv_0_lt_compat; lra).
  apply Rmult_le_reg_r with S; [lra|]. rewrite Rmult_assoc, Rinv_l, Rmult_1_r by lra.
  apply Rle_trans with (1 := Hw). apply Rmult_le_compat_l; lra.
Qed.
Lemma on_data_B now cl t data : bytes_ok data -> (20 <= length data)%nat -> hd 0%Z data <> 115%Z ->
  is_b64 (ra (position NumB t)) -> Rabs (ra (position NumB t)) <= 512 -> Rabs (dec (position NumB t)) <= 512 ->
  (field 12 4 data < 2 ^ 32 - 1)%Z -> (- 2 ^ 31 < signed32 (field 16 4 data) < 2 ^ 31 - 1)%Z ->
  exists r d t', on_data NumB now cl t data = Ret (Some (current_position (now * 1000) r d), t') /\
    (Z.abs (r - field 12 4 data) <= 1)%Z /\ (Z.abs (d - signed32 (field 16 4 data)) <= 1)%Z.
Proof.
  intros Hb HL Hh Hp1 Hp2 Hp3 Hr Hd.
  pose proof (field_range data 12 4 Hb ltac:(lia)) as R1.
  set (n := field 12 4 data) in *. set (m := signed32 (field 16 4 data)) in *.
  destruct (unpack_ok NumB data Hb HL) as (l & ty & us & E). fold n m in E.
  unfold on_data. rewrite nexstar_none by assumption.
  replace (20 <=? Z.of_nat (length data))%Z with true by (symmetry; apply Z.leb_le; lia).
  rewrite E. cbn [jbind go_ra go_dec].
  set (p := ra (position NumB t)) in *. set (q := dec (position NumB t)) in *.
  pose proof raS. pose proof decS.
  assert (C1 : Rabs (chain (ra_scale NumB) p (IZR n) - IZR n) < 1 / 2).
  { assert (N1 : 0 <= IZR n) by (apply IZR_le; lia). assert (N2 : IZR n <= 4294967296) by (apply IZR_le; lia).
    apply chain_close; [change (bpow radix2 28) with 268435456; lra| |lra|change (bpow radix2 32) with 4294967296; apply Rabs_le; lra].
    apply Rle_lt_trans with 25; [|lra]. apply quot_lt with 178956970; [lra| |lra]. apply Rabs_le; lra. }
  assert (C2 : Rabs (chain (dec_scale NumB) q (IZR m) - IZR m) < 1 / 2).
  { assert (N2 : IZR m <= 2147483648) by (apply IZR_le; lia). assert (N1 : -2147483648 <= IZR m) by (apply IZR_le; lia).
    apply chain_close; [change (bpow radix2 28) with 268435456; lra| |lra|change (bpow radix2 32) with 4294967296; apply Rabs_le; lra].
    apply Rle_lt_trans with 181; [|lra]. apply quot_lt with 11930464; [lra| |lra]. apply Rabs_le; lra. }
  assert (W1 : writeUInt32LE NumB (chain (ra_scale NumB) p (IZR n)) = Ret (le_bytes 4 (Ztrunc (chain (ra_scale NumB) p (IZR n))))).
  { apply write32_B; [lia|lia|]. apply Rabs_def2 in C1.
    assert (N2 : IZR n <= 4294967294) by (apply IZR_le; lia). split; [|lra].
    destruct (Z.eq_dec n 0) as [E0|E0]; [rewrite E0, chain_zero by exact Hp1; lra|].
    assert (1 <= IZR n) by (apply IZR_le; lia). lra. }
  assert (W2 : writeInt32LE NumB (chain (dec_scale NumB) q (IZR m)) = Ret (le_bytes 4 (Ztrunc (chain (dec_scale NumB) q (IZR m))))).
  { apply write32_B; [lia|lia|]. apply Rabs_def2 in C2.
    assert (N2 : IZR m <= 2147483646) by (apply IZR_le; lia). assert (N1 : -2147483647 <= IZR m) by (apply IZR_le; lia). lra. }
  exists (Ztrunc (chain (ra_scale NumB) p (IZR n))), (Ztrunc (chain (dec_scale NumB) q (IZR m))).
  set (t' := calibrate NumB t _). exists t'.
  rewrite (pack_words NumB now (getCorrected NumB t') (Ztrunc (chain (ra_scale NumB) p (IZR n))) (Ztrunc (chain (dec_scale NumB) q (IZR m)))).
  - cbn [jbind]. split; [reflexivity|].
    pose proof (Ztrunc_near (chain (ra_scale NumB) p (IZR n)) n ltac:(lra)).
    pose proof (Ztrunc_near (chain (dec_scale NumB) q (IZR m)) m ltac:(lra)). lia.
  - rewrite <- W1. f_equal. unfold t', calibrate, getCorrected, chain. cbn [ra dec position offset fmul fadd fsub fdiv fZ NumB].
    rewrite (b64_of_int n) by lia. reflexivity.
  - rewrite <- W2. f_equal. unfold t', calibrate, getCorrected, chain. cbn [ra dec position offset fmul fadd fsub fdiv fZ NumB].
    rewrite (b64_of_int m) by lia. reflexivity.
Qed.

(** exact *)
Lemma on_data_R now cl t data : bytes_ok data -> (20 <= length data)%nat -> hd 0%Z data <> 115%Z ->
  exists t', on_data NumR now cl t data = Ret (Some (current_position (now * 1000) (field 12 4 data) (field 16 4 data)), t') /\
    position NumR t' = position NumR t /\
    ra (getCorrected NumR t') = IZR (field 12 4 data) * 24 / 4294967296 /\
    dec (getCorrected NumR t') = IZR (signed32 (field 16 4 data)) * 360 / 4294967296.
Proof.
  intros Hb HL Hh.
  pose proof (field_range data 12 4 Hb ltac:(lia)) as R1. pose proof (field_range data 16 4 Hb ltac:(lia)) as R2.
  pose proof (signed32_range _ R2) as R3.
  set (n := field 12 4 data) in *. set (m := signed32 (field 16 4 data)) in *.
  destruct (unpack_ok NumR data Hb HL) as (l & ty & us & E). fold n m in E.
  unfold on_data. rewrite nexstar_none by assumption.
  replace (20 <=? Z.of_nat (length data))%Z with true by (symmetry; apply Z.leb_le; lia).
  rewrite E. cbn [jbind go_ra go_dec]. set (t' := calibrate NumR t _). exists t'.
  assert (G1 : ra (getCorrected NumR t') = IZR n * 24 / 4294967296).
  { unfold t', calibrate, getCorrected, ra_scale. cbn [ra dec position offset fmul fadd fsub fdiv fZ NumR].
    change (F NumR) with R in *. field. }
  assert (G2 : dec (getCorrected NumR t') = IZR m * 360 / 4294967296).
  { unfold t', calibrate, getCorrected, dec_scale. cbn [ra dec position offset fmul fadd fsub fdiv fZ NumR].
    change (F NumR) with R in *. field. }
  rewrite (pack_words NumR now (getCorrected NumR t') n m).
  - cbn [jbind]. split; [|split; [reflexivity|split; assumption]]. do 3 f_equal.
    unfold current_position, m. rewrite (signed32_bytes (field 16 4 data)). reflexivity.
  - rewrite G1. unfold ra_scale. cbn [fmul fdiv fZ NumR]. replace (IZR n * 24 / 4294967296 * (2147483648 / 12)) with (IZR n) by field.
    unfold writeUInt32LE. rewrite write32_R; [rewrite Ztrunc_IZR; reflexivity|]. split; apply IZR_le; lia.
  - rewrite G2. unfold dec_scale. cbn [fmul fdiv fZ NumR]. replace (IZR m * 360 / 4294967296 * (1073741824 / 90)) with (IZR m) by field.
    unfold writeInt32LE. rewrite write32_R; [rewrite Ztrunc_IZR; reflexivity|]. split; apply IZR_le; lia.
Qed.
