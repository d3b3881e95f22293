From Verif Require Import Base Num M_Stellarium S_Stellarium.
From Coq Require Import Reals Lra Psatz.
From Flocq Require Import Core.

(** *** byte lemmas *)
Lemma byte_of_spec x k : 0 <= k -> byte_of x k = (x / 2 ^ k) mod 256.
Proof.
  intros. unfold byte_of. rewrite Z.shiftr_div_pow2 by lia.
  change 0xFF with (Z.ones 8). rewrite Z.land_ones by lia. reflexivity.
Qed.
Lemma byte0_spec x : Z.land x 0xFF = x mod 256.
Proof. change 0xFF with (Z.ones 8). rewrite Z.land_ones by lia. reflexivity. Qed.

Lemma le_bytes_length n x : length (le_bytes n x) = n.
Proof. revert x; induction n; intros; simpl; auto. Qed.

Lemma le_bytes_nonneg n x : bytes_ok (le_bytes n x).
Proof.
  revert x; induction n as [|n IH]; intros; simpl; constructor; [|apply IH].
  red. apply Z.mod_pos_bound; lia.
Qed.

Lemma le_value_bytes n x : le_value (le_bytes n x) = x mod 256 ^ Z.of_nat n.
Proof.
  revert x; induction n as [|n IH]; intros x.
  - simpl. symmetry; apply Z.mod_1_r.
  - cbn [le_bytes le_value]. rewrite IH.
    rewrite Nat2Z.inj_succ, Z.pow_succ_r by lia.
    rewrite Z.rem_mul_r by (try apply Z.pow_pos_nonneg; try lia; pose proof (Z.pow_pos_nonneg 256 (Z.of_nat n)); lia).
    reflexivity.
Qed.

Lemma le_value_range l : bytes_ok l -> 0 <= le_value l < 256 ^ Z.of_nat (length l).
Proof.
  induction l as [|b l IH]; intros H; [simpl; lia|].
  inversion H as [|? ? Hb Hl]; subst. specialize (IH Hl). red in Hb.
  cbn [le_value length]. rewrite Nat2Z.inj_succ, Z.pow_succ_r by lia. lia.
Qed.

Lemma le_bytes_value l : bytes_ok l -> le_bytes (length l) (le_value l) = l.
Proof.
  induction l as [|b l IH]; intros H; [reflexivity|].
  inversion H as [|? ? Hb Hl]; subst. red in Hb. cbn [length le_value le_bytes].
  replace (b + 256 * le_value l) with (b + le_value l * 256) by lia.
  rewrite Z.mod_add, Z.mod_small by lia.
  rewrite Z.div_add, Z.div_small by lia. rewrite Z.add_0_l, IH by auto. reflexivity.
Qed.

Lemma le4 x : le_bytes 4 x = [Z.land x 0xFF; byte_of x 8; byte_of x 16; byte_of x 24].
Proof.
  rewrite byte0_spec, !byte_of_spec by lia. cbn [le_bytes].
  repeat rewrite Z.div_div by lia. reflexivity.
Qed.
Lemma le8 x : le_bytes 8 x = [Z.land x 0xFF; byte_of x 8; byte_of x 16; byte_of x 24;
   byte_of x 32; byte_of x 40; byte_of x 48; byte_of x 56].
Proof.
  rewrite byte0_spec, !byte_of_spec by lia. cbn [le_bytes].
  repeat rewrite Z.div_div by lia. reflexivity.
Qed.

(** *** put *)
Lemma skipn_skipn {A} (x y : nat) (l : list A) : skipn x (skipn y l) = skipn (y + x) l.
Proof.
  revert l; induction y as [|y IH]; intros l; [reflexivity|].
  destruct l as [|a l]; simpl; [apply skipn_nil|apply IH].
Qed.

Lemma upd_split {A} (l : list A) i a : (i < length l)%nat ->
  upd l i a = Some (firstn i l ++ a :: skipn (S i) l).
Proof.
  revert i; induction l as [|h t IH]; intros [|i] H; simpl in *; try lia; auto.
  rewrite IH by lia. reflexivity.
Qed.

Lemma put_spec bs : forall buffer pos, (pos + length bs <= length buffer)%nat ->
  put buffer pos bs = Ok (firstn pos buffer ++ bs ++ skipn (pos + length bs) buffer).
Proof.
  induction bs as [|b bs IH]; intros buffer pos H; cbn [put length].
  - rewrite Nat.add_0_r. simpl. rewrite firstn_skipn. reflexivity.
  - cbn [length] in H. unfold wr. rewrite upd_split by lia. cbn [bind].
    set (buffer' := firstn pos buffer ++ b :: skipn (S pos) buffer).
    assert (Hl : length buffer' = length buffer).
    { unfold buffer'. rewrite app_length, firstn_length. cbn [length]. rewrite skipn_length. lia. }
    rewrite IH by lia. f_equal. unfold buffer'.
    rewrite firstn_app, firstn_firstn, firstn_length.
    replace (Nat.min (S pos) pos) with pos by lia.
    replace (S pos - Nat.min pos (length buffer))%nat with 1%nat by lia.
    cbn [firstn]. rewrite <- app_assoc. cbn [app]. f_equal. f_equal. f_equal.
    rewrite skipn_app, firstn_length, skipn_firstn_comm.
    replace (pos - (S pos + length bs))%nat with 0%nat by lia. cbn [firstn app].
    replace (S pos + length bs - Nat.min pos (length buffer))%nat with (S (length bs)) by lia.
    rewrite skipn_cons, skipn_skipn. f_equal. lia.
Qed.

Lemma put_oob bs : forall buffer pos, (length buffer < pos + length bs)%nat ->
  (pos <= length buffer)%nat -> put buffer pos bs = UB OobWrite.
Proof.
  induction bs as [|b bs IH]; intros buffer pos H Hp; cbn [put length] in *; [lia|].
  unfold wr. destruct (Nat.eq_dec pos (length buffer)) as [E|E].
  - rewrite upd_none by lia. reflexivity.
  - rewrite upd_split by lia. cbn [bind]. apply IH.
    + rewrite app_length, firstn_length. cbn [length]. rewrite skipn_length. lia.
    + rewrite app_length, firstn_length. cbn [length]. rewrite skipn_length. lia.
Qed.

Lemma put_app a rest bs : (length bs <= length rest)%nat ->
  put (a ++ rest) (length a) bs = Ok ((a ++ bs) ++ skipn (length bs) rest).
Proof.
  intros H. rewrite put_spec by (rewrite app_length; lia). f_equal.
  rewrite firstn_app, firstn_all, Nat.sub_diag. cbn [firstn]. rewrite app_nil_r, <- app_assoc.
  f_equal. f_equal. rewrite skipn_app. rewrite skipn_all2 by lia. cbn [app]. f_equal. lia.
Qed.

Lemma pack_spec N oor ra dec ts buffer n :
  (24 <= length buffer)%nat -> 24 <= n ->
  packPosition N oor ra dec ts buffer n =
  (do r <- to_u32 N oor (encode_expr N ra);
   do d <- to_u32 N oor (encode_expr N dec);
   Ok (24, current_position ts r d ++ skipn 24 buffer)).
Proof.
  intros Hl Hn. unfold packPosition.
  replace (n <? 24) with false by (symmetry; apply Z.ltb_ge; lia).
  match goal with |- context [put buffer 0 ?l] => set (h := l) end.
  change (put buffer 0 h) with (put ([] ++ buffer) (length (@nil Z)) h).
  rewrite put_app by (change (length h) with 12%nat; lia).
  change (length h) with 12%nat. cbn [bind]. change ([] ++ h) with h.
  destruct (to_u32 N oor (encode_expr N ra)) as [r|u]; cbn [bind]; [|reflexivity].
  match goal with |- context [put _ 12 ?l] => set (h2 := l) end.
  change 12%nat with (length h) at 2.
  rewrite put_app by (rewrite skipn_length; change (length h2) with 4%nat; lia).
  change (length h2) with 4%nat. cbn [bind]. rewrite skipn_skipn. change (12 + 4)%nat with 16%nat.
  destruct (to_u32 N oor (encode_expr N dec)) as [d|u]; cbn [bind]; [|reflexivity].
  match goal with |- context [put _ 16 ?l] => set (h3 := l) end.
  change 16%nat with (length (h ++ h2)) at 2.
  rewrite put_app by (rewrite skipn_length; change (length h3) with 4%nat; lia).
  change (length h3) with 4%nat. cbn [bind]. rewrite skipn_skipn. change (16 + 4)%nat with 20%nat.
  match goal with |- context [put _ 20 ?l] => set (h4 := l) end.
  change 20%nat with (length ((h ++ h2) ++ h3)) at 2.
  rewrite put_app by (rewrite skipn_length; change (length h4) with 4%nat; lia).
  change (length h4) with 4%nat. cbn [bind]. rewrite skipn_skipn. change (20 + 4)%nat with 24%nat.
  f_equal. f_equal. unfold current_position. rewrite !le4, le8.
  unfold h, h2, h3, h4. reflexivity.
Qed.

Lemma pack_small N oor ra dec ts buffer n :
  n < 24 -> packPosition N oor ra dec ts buffer n = Ok (0, buffer).
Proof.
  intros H. unfold packPosition. replace (n <? 24) with true by (symmetry; apply Z.ltb_lt; lia). reflexivity.
Qed.

(** *** unpack *)
Lemma field_le (data : list Z) k n :
  field k n data = le_value (firstn n (skipn k data)).
Proof. reflexivity. Qed.

Lemma nth_rd (data : list Z) i : (i < length data)%nat -> rd data i = Ok (nth i data 0).
Proof. apply rd_inb. Qed.

Lemma firstn_skipn_nth (l : list Z) k n : (k < length l)%nat ->
  firstn (S n) (skipn k l) = nth k l 0 :: firstn n (skipn (S k) l).
Proof.
  revert k; induction l as [|a l IH]; intros k H; simpl in *; [lia|].
  destruct k; simpl; [reflexivity|]. rewrite <- IH by lia. reflexivity.
Qed.

Lemma bytes_nth l i : bytes_ok l -> (i < length l)%nat -> is_byte (nth i l 0).
Proof. intros H Hi. apply (proj1 (Forall_forall _ _) H). apply nth_In; auto. Qed.

Lemma field2 data k : (S k < length data)%nat -> bytes_ok data ->
  u32 (nth k data 0 + Z.shiftl (nth (S k) data 0) 8) = field k 2 data.
Proof.
  intros H Hb. unfold field. rewrite !firstn_skipn_nth by lia.
  rewrite Z.shiftl_mul_pow2 by lia. cbn [firstn le_value]. unfold u32.
  pose proof (bytes_nth data k Hb ltac:(lia)). pose proof (bytes_nth data (S k) Hb ltac:(lia)).
  unfold is_byte in *. rewrite Z.mod_small by lia. lia.
Qed.

Lemma field4 data k : (S (S (S k)) < length data)%nat -> bytes_ok data ->
  u32 (nth k data 0 + Z.shiftl (nth (S k) data 0) 8 + Z.shiftl (nth (S (S k)) data 0) 16
       + Z.shiftl (nth (S (S (S k))) data 0) 24) = field k 4 data.
Proof.
  intros H Hb. unfold field. rewrite !firstn_skipn_nth by lia.
  rewrite !Z.shiftl_mul_pow2 by lia. cbn [firstn le_value]. unfold u32.
  pose proof (bytes_nth data k Hb ltac:(lia)). pose proof (bytes_nth data (S k) Hb ltac:(lia)).
  pose proof (bytes_nth data (S (S k)) Hb ltac:(lia)). pose proof (bytes_nth data (S (S (S k))) Hb ltac:(lia)).
  unfold is_byte in *. rewrite Z.mod_small by lia. lia.
Qed.

Lemma field8 data k : (k + 7 < length data)%nat -> bytes_ok data ->
  u64 (nth k data 0 + Z.shiftl (nth (S k) data 0) 8 + Z.shiftl (nth (S (S k)) data 0) 16
       + Z.shiftl (nth (S (S (S k))) data 0) 24 + Z.shiftl (nth (S (S (S (S k)))) data 0) 32
       + Z.shiftl (nth (S (S (S (S (S k))))) data 0) 40 + Z.shiftl (nth (S (S (S (S (S (S k)))))) data 0) 48
       + Z.shiftl (nth (S (S (S (S (S (S (S k))))))) data 0) 56) = field k 8 data.
Proof.
  intros H Hb. unfold field. rewrite !firstn_skipn_nth by lia.
  rewrite !Z.shiftl_mul_pow2 by lia. cbn [firstn le_value]. unfold u64.
  pose proof (bytes_nth data k Hb ltac:(lia)). pose proof (bytes_nth data (S k) Hb ltac:(lia)).
  pose proof (bytes_nth data (S (S k)) Hb ltac:(lia)). pose proof (bytes_nth data (S (S (S k))) Hb ltac:(lia)).
  pose proof (bytes_nth data (S (S (S (S k)))) Hb ltac:(lia)).
  pose proof (bytes_nth data (S (S (S (S (S k))))) Hb ltac:(lia)).
  pose proof (bytes_nth data (S (S (S (S (S (S k)))))) Hb ltac:(lia)).
  pose proof (bytes_nth data (S (S (S (S (S (S (S k))))))) Hb ltac:(lia)).
  unfold is_byte in *. rewrite Z.mod_small by lia. lia.
Qed.

Definition accepted (data : list Z) (dataLength : Z) : bool :=
  (20 <=? field 0 2 data) && (field 0 2 data <=? dataLength) && (field 2 2 data =? 0).

Lemma unpack_spec N want data (dataLength : Z) (out : unpack_out N) :
  bytes_ok data -> (2 <= length data)%nat -> dataLength <= Z.of_nat (length data) ->
  unpackPosition N want data dataLength out =
  Ok (if accepted data dataLength
      then (true, {| o_ra := decode_expr N (field 12 4 data); o_dec := decode_expr N (field 16 4 data);
                     o_ts := if want then field 4 8 data / 1000 else o_ts out |})
      else (false, out)).
Proof.
  intros Hb Hl Hd. unfold unpackPosition.
  rewrite (nth_rd data 0), (nth_rd data 1) by lia. cbn [bind].
  rewrite (field2 data 0) by (auto; lia). unfold accepted.
  destruct (Z.ltb_spec (field 0 2 data) 20) as [H1|H1].
  { replace (20 <=? field 0 2 data) with false by (symmetry; apply Z.leb_gt; lia). reflexivity. }
  replace (20 <=? field 0 2 data) with true by (symmetry; apply Z.leb_le; lia).
  destruct (Z.ltb_spec dataLength (field 0 2 data)) as [H2|H2].
  { replace (field 0 2 data <=? dataLength) with false by (symmetry; apply Z.leb_gt; lia). reflexivity. }
  replace (field 0 2 data <=? dataLength) with true by (symmetry; apply Z.leb_le; lia).
  cbn [orb andb].
  assert (Hlen : (20 <= length data)%nat) by lia.
  rewrite (nth_rd data 2), (nth_rd data 3) by lia. cbn [bind].
  rewrite (field2 data 2) by (auto; lia).
  destruct (Z.eqb_spec (field 2 2 data) 0) as [H3|H3]; [|reflexivity]. cbn [negb].
  destruct want.
  - rewrite !nth_rd by lia. cbn [bind].
    rewrite (field4 data 12), (field4 data 16), (field8 data 4) by (auto; lia). reflexivity.
  - rewrite !nth_rd by lia. cbn [bind].
    rewrite (field4 data 12), (field4 data 16) by (auto; lia). reflexivity.
Qed.

Lemma unpack_short N want data dataLength out : (length data < 2)%nat ->
  unpackPosition N want data dataLength out = UB OobRead.
Proof.
  intros H. unfold unpackPosition. destruct data as [|a [|b t]]; simpl in *; try reflexivity; lia.
Qed.

(** Without any lower bound the caller's dataLength does not protect the header reads. *)
Lemma le_value_app a b : le_value (a ++ b) = le_value a + 256 ^ Z.of_nat (length a) * le_value b.
Proof.
  induction a as [|x a IH]; [simpl; destruct (le_value b); reflexivity|].
  cbn [app le_value length]. rewrite IH, Nat2Z.inj_succ, Z.pow_succ_r by lia. ring.
Qed.

Lemma goto_fields t r d :
  field 0 2 (goto_message t r d) = 20 /\ field 2 2 (goto_message t r d) = 0 /\
  field 4 8 (goto_message t r d) = t mod 256 ^ 8 /\
  field 12 4 (goto_message t r d) = r mod 256 ^ 4 /\ field 16 4 (goto_message t r d) = d mod 256 ^ 4.
Proof.
  unfold field, goto_message.
  split; [reflexivity|]. split; [reflexivity|].
  repeat split.
  - change (firstn 8 (skipn 4 _)) with (le_bytes 8 t). apply (le_value_bytes 8).
  - change (firstn 4 (skipn 12 _)) with (le_bytes 4 r). apply (le_value_bytes 4).
  - change (firstn 4 (skipn 16 _)) with (le_bytes 4 d). apply (le_value_bytes 4).
Qed.

(** *** rounding *)
Open Scope R_scope.

Lemma b64_exact_scaled (n e : Z) : (Z.abs n < 2 ^ 53)%Z -> (-1074 <= e)%Z ->
  b64 (IZR n * bpow radix2 e) = IZR n * bpow radix2 e.
Proof.
  intros Hn He. apply round_generic; [apply valid_rnd_N|].
  apply generic_format_FLT. exists (Float radix2 n e); simpl; auto.
Qed.

Lemma b64_int (n : Z) : (Z.abs n < 2 ^ 53)%Z -> b64 (IZR n) = IZR n.
Proof.
  intros Hn. rewrite <- (Rmult_1_r (IZR n)). change 1 with (bpow radix2 0).
  apply b64_exact_scaled; auto; lia.
Qed.

Lemma decode_exact (n : Z) : (0 <= n < 2 ^ 32)%Z -> decode_expr NumB n = IZR n * unit_deg.
Proof.
  intros Hn. unfold decode_expr, NumB, unit_deg; cbn [fZ fdiv fmul].
  rewrite !(b64_int n), (b64_int 2147483648), (b64_int 180) by lia.
  replace (IZR n / IZR 2147483648) with (IZR n * bpow radix2 (-31)) by (simpl; unfold Rdiv; f_equal; lra).
  rewrite b64_exact_scaled by lia.
  replace (IZR n * bpow radix2 (-31) * 180) with (IZR (n * 180) * bpow radix2 (-31))
    by (rewrite mult_IZR; ring).
  rewrite b64_exact_scaled by lia. rewrite mult_IZR. simpl. lra.
Qed.

Lemma decode_R (n : Z) : decode_expr NumR n = IZR n * unit_deg.
Proof. unfold decode_expr, NumR, unit_deg; cbn [fZ fdiv fmul]. lra. Qed.

Lemma encode_decode_R (n : Z) : encode_expr NumR (decode_expr NumR n) = IZR n.
Proof.
  rewrite decode_R. unfold encode_expr, NumR, unit_deg; cbn [fZ fdiv fmul fadd ffloor fq].
  f_equal. apply Zfloor_imp. rewrite plus_IZR. split; lra.
Qed.

Lemma encode_decode_B (n : Z) : (0 <= n < 2 ^ 32)%Z ->
  encode_expr NumB (decode_expr NumB n) = IZR n.
Proof.
  intros Hn. rewrite decode_exact by auto.
  unfold encode_expr, NumB, unit_deg; cbn [fZ fdiv fmul fadd ffloor fq].
  rewrite (b64_int 2147483648), (b64_int 180) by lia.
  replace (IZR n * (180 / 2147483648) * 2147483648) with (IZR (n * 180)) by (rewrite mult_IZR; lra).
  rewrite (b64_int (n * 180)) by lia.
  replace (IZR (n * 180) / 180) with (IZR n) by (rewrite mult_IZR; lra).
  rewrite (b64_int n) by lia.
  replace (1 / 2) with (IZR 1 * bpow radix2 (-1)) by (simpl; lra).
  rewrite b64_exact_scaled by lia.
  replace (IZR 1 * bpow radix2 (-1) + IZR n) with (IZR (2 * n + 1) * bpow radix2 (-1))
    by (rewrite plus_IZR, mult_IZR; simpl; lra).
  rewrite b64_exact_scaled by lia.
  f_equal. apply Zfloor_imp. rewrite !plus_IZR, mult_IZR. simpl. split; lra.
Qed.

Lemma to_u32_int N oor x z : ftrunc N x = Some z -> (0 <= z < 2 ^ 32)%Z -> to_u32 N oor x = Ok z.
Proof.
  intros H Hz. unfold to_u32. rewrite H.
  replace ((0 <=? z)%Z && (z <? 4294967296)%Z) with true; [reflexivity|].
  symmetry; apply andb_true_iff; split; [apply Z.leb_le|apply Z.ltb_lt]; lia.
Qed.

Lemma wire_roundtrip_R oor (n : Z) : (0 <= n < 2 ^ 32)%Z ->
  to_u32 NumR oor (encode_expr NumR (decode_expr NumR n)) = Ok n.
Proof. intros. rewrite encode_decode_R. apply to_u32_int; [simpl; rewrite Ztrunc_IZR; reflexivity|auto]. Qed.

Lemma wire_roundtrip_B oor (n : Z) : (0 <= n < 2 ^ 32)%Z ->
  to_u32 NumB oor (encode_expr NumB (decode_expr NumB n)) = Ok n.
Proof. intros. rewrite encode_decode_B by auto. apply to_u32_int; [simpl; rewrite Ztrunc_IZR; reflexivity|auto]. Qed.

(** value -> wire -> value, exact reals *)
Lemma value_roundtrip_R oor x : 0 <= x < 360 - unit_deg / 2 ->
  exists n, to_u32 NumR oor (encode_expr NumR x) = Ok n /\ (0 <= n < 2 ^ 32)%Z /\
            Rabs (decode_expr NumR n - x) <= unit_deg / 2.
Proof.
  intros Hx. unfold unit_deg in *.
  set (y := 1 / 2 + x * 2147483648 / 180).
  exists (Zfloor y).
  assert (Hy : 0 <= y < 4294967296) by (unfold y; lra).
  pose proof (Zfloor_lb y) as Hlb. pose proof (Zfloor_ub y) as Hub.
  assert (Hn : (0 <= Zfloor y < 2 ^ 32)%Z).
  { split; [apply Zfloor_lub; lra|]. apply lt_IZR. change (IZR (2^32)) with 4294967296. lra. }
  split; [|split; [exact Hn|]].
  - apply to_u32_int; [|exact Hn].
    unfold encode_expr, NumR; cbn [fZ fdiv fmul fadd ffloor fq ftrunc].
    rewrite Ztrunc_IZR. reflexivity.
  - rewrite decode_R. unfold unit_deg. apply Rabs_le. unfold y in *. lra.
Qed.

Lemma b64_le x y : x <= y -> b64 x <= b64 y.
Proof. apply round_le; [apply FLT_exp_valid; reflexivity|apply valid_rnd_N]. Qed.
Lemma b64_0 : b64 0 = 0.
Proof. apply round_0; apply valid_rnd_N. Qed.
Lemma b64_nonneg x : 0 <= x -> 0 <= b64 x.
Proof. intros. rewrite <- b64_0. apply b64_le; auto. Qed.

(** relative error of one rounding, with an absolute bound *)
Lemma b64_err x : Rabs x <= bpow radix2 33 -> Rabs (b64 x - x) <= bpow radix2 (-20).
Proof.
  intros Hx. unfold b64.
  eapply Rle_trans.
  - apply error_le_half_ulp. apply FLT_exp_valid. reflexivity.
  - apply Rle_trans with (/2 * ulp radix2 exp64 (bpow radix2 33)).
    + apply Rmult_le_compat_l; [lra|].
      rewrite <- (ulp_abs radix2 exp64 x). apply ulp_le_pos; auto with typeclass_instances.
      apply FLT_exp_valid; reflexivity. apply FLT_exp_monotone. apply Rabs_pos.
    + rewrite ulp_bpow. unfold exp64, FLT_exp. simpl Z.max. simpl. lra.
Qed.

Lemma value_roundtrip_B oor x : is_b64 x -> 0 <= x <= 360 - unit_deg ->
  exists n, to_u32 NumB oor (encode_expr NumB x) = Ok n /\ (0 <= n < 2 ^ 32)%Z /\
            Rabs (decode_expr NumB n - x) <= unit_deg * (1 / 2 + bpow radix2 (-19)).
Proof.
  intros Hf Hx. unfold encode_expr, NumB; cbn [fZ fdiv fmul fadd ffloor fq].
  rewrite (b64_int 2147483648), (b64_int 180) by lia.
  assert (Hh : b64 (1 / 2) = 1 / 2).
  { replace (1 / 2) with (IZR 1 * bpow radix2 (-1)) by (simpl; lra). apply b64_exact_scaled; lia. }
  rewrite Hh.
  assert (Hm : b64 (x * 2147483648) = x * 2147483648).
  { apply round_generic; [apply valid_rnd_N|].
    change 2147483648 with (bpow radix2 31).
    unfold is_b64 in Hf. apply FLT_format_generic in Hf; [|reflexivity].
    destruct Hf as [f Hf1 Hf2 Hf3].
    apply generic_format_FLT. exists (Float radix2 (Fnum f) (Fexp f + 31)); cbn [Fnum Fexp].
    - rewrite Hf1. unfold F2R; cbn [Fnum Fexp]. rewrite bpow_plus. ring.
    - exact Hf2.
    - lia. }
  rewrite Hm. unfold unit_deg in Hx.
  set (q := x * 2147483648 / 180).
  assert (Hq : 0 <= q <= 4294967295) by (unfold q; lra).
  assert (E1 : Rabs (b64 q - q) <= bpow radix2 (-20)).
  { apply b64_err. rewrite Rabs_pos_eq by lra. simpl; lra. }
  apply Rabs_le_inv in E1.
  assert (Hq0 : 0 <= b64 q) by (apply b64_nonneg; lra).
  assert (Hq1 : b64 q <= 4294967295).
  { replace 4294967295 with (b64 4294967295) by (apply b64_int; lia). apply b64_le; lra. }
  assert (E2 : Rabs (b64 (1/2 + b64 q) - (1/2 + b64 q)) <= bpow radix2 (-20)).
  { apply b64_err. rewrite Rabs_pos_eq by lra. simpl; lra. }
  apply Rabs_le_inv in E2.
  set (y := b64 (1/2 + b64 q)) in *.
  assert (Hy0 : 0 <= y) by (apply b64_nonneg; lra).
  assert (Hy1 : y <= 4294967295 + 1/2).
  { assert (Hc : b64 (4294967295 + 1/2) = 4294967295 + 1/2).
    { replace (4294967295 + 1/2) with (IZR 8589934591 * bpow radix2 (-1)) by (simpl; lra).
      apply b64_exact_scaled; lia. }
    rewrite <- Hc. apply b64_le; lra. }
  pose proof (Zfloor_lb y) as Hlb. pose proof (Zfloor_ub y) as Hub.
  assert (Hn : (0 <= Zfloor y < 2 ^ 32)%Z).
  { split; [apply Zfloor_lub; lra|]. apply lt_IZR. change (IZR (2^32)) with 4294967296. lra. }
  exists (Zfloor y). split; [|split; [exact Hn|]].
  - apply to_u32_int; [|exact Hn]. cbn [ftrunc]. rewrite Ztrunc_IZR. reflexivity.
  - change (Rabs (decode_expr NumB (Zfloor y) - x) <= unit_deg * (1 / 2 + bpow radix2 (-19))).
    rewrite decode_exact by auto. unfold unit_deg. apply Rabs_le.
    assert (x = q * 180 / 2147483648) by (unfold q; lra).
    simpl bpow in *. split; lra.
Qed.
Close Scope R_scope.
