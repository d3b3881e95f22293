(** C52, C87, C88, C99: the heading filter (main.cpp:473-482). *)
From Verif Require Import Base Num M_Libc M_Checkbits S_Checkbits P_Checkbits M_Linalg M_Helper M_Alignment M_Telescope M_Stellarium M_Gnss M_NexStar M_Led M_Imu M_Main P_Sched P_Main P_Main2 P_Round.
From Coq Require Import Strings.String Reals Lra.
From Flocq Require Import Core.
Open Scope Z_scope.
Notation length := List.length.

Section Device.
Context (N : Num) (T : Trig N) (pf : platform) (oor : conv_policy) (lc : libc N).
Context (qsort : list (vpair N) -> list (vpair N)) (m9 : res (F N)) (junk : option (F N * F N)).
Context (ftext : nat -> F N -> list Z) (left_first : bool) (cfg : config).
Notation dev := (dev N). Notation env := (env N). Notation event := (event N).
Notation loop := (loop N T pf oor lc qsort m9 junk ftext left_first cfg).
Notation step := (step N T pf oor lc qsort m9 junk ftext left_first cfg).
Notation history := (history N T pf oor lc qsort m9 junk ftext left_first cfg).
Notation boot := (boot N).

(** The encoder sends two bytes; [frame] is the word made of them, the byte of the operand of << being the high one. *)
Definition frame (e : env) : Z := let '(b1, b2) := e_spi e in if left_first then 256 * b1 + b2 else 256 * b2 + b1.
Definition spi_bytes (e : env) : Prop := 0 <= fst (e_spi e) < 256 /\ 0 <= snd (e_spi e) < 256.
(** the 14-bit position in a frame *)
Definition position (w : Z) : Z := w mod 16384.

Lemma lor_bytes hi lo : 0 <= hi < 256 -> 0 <= lo < 256 -> Z.lor (Z.shiftl hi 8) lo mod 65536 = 256 * hi + lo.
Proof.
  intros H1 H2. assert (E : Z.lor (Z.shiftl hi 8) lo = 256 * hi + lo).
  { assert (L : Z.land (Z.shiftl hi 8) lo = 0).
    { apply Z.bits_inj'. intros k Hk. rewrite Z.land_spec, Z.bits_0. destruct (Z.ltb_spec k 8).
      - rewrite Z.shiftl_spec_low by lia. reflexivity.
      - replace (Z.testbit lo k) with false; [apply andb_false_r|]. symmetry. destruct (Z.eq_dec lo 0) as [->|Hl]; [apply Z.bits_0|]. apply Z.bits_above_log2; [lia|].
        assert (Z.log2 lo < 8); [|lia]. apply Z.log2_lt_pow2; lia. }
    rewrite <- Z.lxor_lor by exact L. rewrite <- Z.add_nocarry_lxor by exact L. rewrite Z.shiftl_mul_pow2 by lia. lia. }
  rewrite E. apply Z.mod_small. lia.
Qed.
Lemma raw_frame e : spi_bytes e -> heading_raw N left_first e = frame e.
Proof. unfold heading_raw, frame, spi_bytes. destruct (e_spi e) as [b1 b2]. cbn [fst snd]. intros [H1 H2]. destruct left_first; apply lor_bytes; assumption. Qed.

Definition all_bytes (evs : list event) : Prop := Forall (fun ev => match ev with Pass e => spi_bytes e | Bluetooth _ => True end) evs.
(** the frames read in a history, one by each run of the 100 ms task *)
Fixpoint frames (d : dev) (evs : list event) : list Z :=
  match evs with
  | [] => []
  | ev :: evs =>
      (match ev with Pass e => match the_task N d e with Task100ms => [frame e] | _ => [] end | Bluetooth _ => [] end) ++
      match step d ev with Ok (d', _) => frames d' evs | UB _ => [] end
  end.

Lemma step_heading d ev d' o : step d ev = Ok (d', o) -> sized N d -> (match ev with Pass e => spi_bytes e | Bluetooth _ => True end) ->
  d_heading d' = fold_left (filter_heading N) (match ev with Pass e => match the_task N d e with Task100ms => [frame e] | _ => [] end | Bluetooth _ => [] end) (d_heading d).
Proof.
  intros E S Hb. destruct ev as [e|req]; cbn [M_Main.step] in E.
  - destruct (task_eq_dec (the_task N d e) Task100ms) as [Et|Et].
    + rewrite Et. cbn [fold_left]. rewrite loop_run, Et in E. cbn [M_Main.run_task] in E. apply task_100_frame in E; [|exact S].
      destruct E as (p & tx & rx & tel & nx & oa & ob & _ & _ & _ & E). cbv zeta in E. destruct E as (-> & _). cbn [d_heading]. rewrite raw_frame by exact Hb. reflexivity.
    + apply loop_summary in E; [|exact S]. destruct E as (_ & _ & _ & E & _). destruct (E Et) as (_ & -> & _). destruct (the_task N d e); try reflexivity. congruence.
  - apply bluetooth_frame in E; [|exact S]. destruct E as (n & tx & tel & _ & _ & _ & -> & _). destruct (0 <? n); reflexivity.
Qed.
(** The heading is the start value filtered with the frames read, and with nothing else. *)
Lemma heading_fold evs : forall d d' o, history d evs = Ok (d', o) -> sized N d -> all_bytes evs ->
  d_heading d' = fold_left (filter_heading N) (frames d evs) (d_heading d).
Proof.
  induction evs as [|ev evs IH]; intros d d' o E S Hb; cbn [M_Main.history] in E.
  - apply Ok2 in E. destruct E as [<- _]. reflexivity.
  - destruct (step d ev) as [[d1 o1]|] eqn:E1; [|discriminate]. cbn [bind] in E. destruct (history d1 evs) as [[d2 o2]|] eqn:E2; [|discriminate]. cbn [bind] in E.
    apply Ok2 in E. destruct E as [<- _]. inversion Hb as [|? ? Hb1 Hb2]; subst. pose proof (step_heading _ _ _ _ E1 S Hb1) as H1. apply step_summary in E1 as S1; [|exact S].
    rewrite (IH _ _ _ E2 (proj1 S1) Hb2), H1. cbn [frames]. rewrite E1, fold_left_app. reflexivity.
Qed.
(** Frames whose check bits are wrong do not change the heading, whatever the arithmetic. *)
Theorem C52_rejected_frames_ignored : forall evs d d' o, history d evs = Ok (d', o) -> sized N d -> all_bytes evs ->
  (forall w, In w (frames d evs) -> ~ good_frame w) -> d_heading d' = d_heading d.
Proof.
  intros evs d d' o E S Hb Hg. rewrite (heading_fold _ _ _ _ E S Hb). revert Hg. generalize (d_heading d). induction (frames d evs) as [|w l IH]; intros h Hg; [reflexivity|].
  cbn [fold_left]. rewrite IH by (intros; apply Hg; right; assumption). unfold filter_heading. destruct (verifyAmtCheckbits w) eqn:Ev; [|reflexivity].
  exfalso. apply (Hg w); [left; reflexivity|]. apply verify_good. exact Ev.
Qed.
End Device.

(** ** Numbers *)
Open Scope R_scope.
(** what the firmware takes a position to mean, in degrees *)
Definition reading (w : Z) : R := IZR (position w) * 360 / 16385.
Lemma land_position w : Z.land w 0x3fff = position w.
Proof. unfold position. change 0x3fff%Z with (Z.ones 14). rewrite Z.land_ones by lia. reflexivity. Qed.
Lemma position_range w : (0 <= position w <= 16383)%Z.
Proof. unfold position. pose proof (Z.mod_pos_bound w 16384). lia. Qed.
Lemma reading_range w : 0 <= reading w <= 359.957.
Proof.
  unfold reading. destruct (position_range w) as [H1 H2]. apply IZR_le in H1, H2. split; [|lra].
  apply Rmult_le_pos; [apply Rmult_le_pos; lra|lra].
Qed.

(** One frame, exact arithmetic: 30 percent of the way. *)
Inductive filtered : R -> list Z -> R -> Prop :=
| filtered_nil h : filtered h [] h
| filtered_bad h w ws h' : ~ good_frame w -> filtered h ws h' -> filtered h (w :: ws) h'
| filtered_good h w ws h' : good_frame w -> filtered (h + 3 / 10 * (reading w - h)) ws h' -> filtered h (w :: ws) h'.
Lemma filter_R (h : F NumR) w : filter_heading NumR h w = if verifyAmtCheckbits w then h + 3 / 10 * (reading w - h) else h.
Proof. unfold filter_heading. destruct (verifyAmtCheckbits w); [|reflexivity]. rewrite land_position. reflexivity. Qed.
Lemma filtered_fold ws : forall h : R, filtered h ws (fold_left (filter_heading NumR) ws h).
Proof.
  induction ws as [|w ws IH]; intros h; cbn [fold_left]; [constructor|]. rewrite filter_R. destruct (verifyAmtCheckbits w) eqn:Ev.
  - apply filtered_good; [apply verify_good; exact Ev|apply IH].
  - apply filtered_bad; [intros G; apply verify_good in G; congruence|apply IH].
Qed.
Section Exact.
Context (T : Trig NumR) (pf : platform) (oor : conv_policy) (lc : libc NumR).
Context (qsort : list (vpair NumR) -> list (vpair NumR)) (m9 : res (F NumR)) (junk : option (F NumR * F NumR)).
Context (ftext : nat -> F NumR -> list Z) (left_first : bool) (cfg : config).
Notation history := (history NumR T pf oor lc qsort m9 junk ftext left_first cfg).
Notation frames := (frames NumR T pf oor lc qsort m9 junk ftext left_first cfg).
(** The heading after a history is 180 degrees filtered with the frames read in it. *)
Theorem C52_heading_is_filtered : forall evs d o, history (boot NumR) evs = Ok (d, o) -> all_bytes NumR evs ->
  filtered 180 (frames (boot NumR) evs) (d_heading d).
Proof. intros evs d o E Hb. rewrite (heading_fold _ _ _ _ _ _ _ _ _ _ _ _ _ _ _ E (boot_sized NumR) Hb). apply filtered_fold. Qed.
Lemma filtered_range h ws h' : filtered h ws h' -> 0 <= h < 360 -> 0 <= h' < 360.
Proof. induction 1 as [h|h w ws h' _ _ IH|h w ws h' _ _ IH]; intros Hh; [exact Hh|auto|]. apply IH. pose proof (reading_range w). lra. Qed.
Theorem C52_heading_range_exact : forall evs d o, history (boot NumR) evs = Ok (d, o) -> all_bytes NumR evs -> 0 <= d_heading d < 360.
Proof. intros evs d o E Hb. pose proof (C52_heading_is_filtered _ _ _ E Hb) as H. apply filtered_range in H; [exact H|lra]. Qed.
(** Constant readings: every accepted frame brings the heading to 7/10 of its distance; rejected ones do nothing. *)
Theorem C52_converges_exact : forall evs d d' o p, history d evs = Ok (d', o) -> sized NumR d -> all_bytes NumR evs ->
  (forall w, In w (frames d evs) -> good_frame w -> position w = p) ->
  exists n, n = length (filter verifyAmtCheckbits (frames d evs)) /\
    d_heading d' - IZR p * 360 / 16385 = (7 / 10) ^ n * (d_heading d - IZR p * 360 / 16385).
Proof.
  intros evs d d' o p E S Hb Hp. eexists. split; [reflexivity|]. rewrite (heading_fold _ _ _ _ _ _ _ _ _ _ _ _ _ _ _ E S Hb).
  generalize (d_heading d). revert Hp. induction (frames d evs) as [|w ws IH]; intros Hp h; cbn [fold_left filter].
  - cbn [length pow]. cbn. lra.
  - rewrite IH by (intros; apply Hp; [right; assumption|assumption]). rewrite filter_R. destruct (verifyAmtCheckbits w) eqn:Ev; [|reflexivity].
    cbn [length pow]. assert (Ep : position w = p) by (apply Hp; [left; reflexivity|apply verify_good; exact Ev]). unfold reading. rewrite Ep.
    set (k := (7 / 10) ^ length (filter verifyAmtCheckbits ws)). set (m := IZR p * 360 / 16385). cbn. ring_simplify. lra.
Qed.
End Exact.

(** ** The device's arithmetic *)
Definition c32 : R := b32 (b64 (3 / 10)).
Lemma c32_value : c32 = IZR 10066330 * bpow radix2 (-25).
Proof.
  assert (E : Rabs (b64 (3 / 10) - 3 / 10) <= bpow radix2 (-1 - 53)). { apply b64_error; [lia|]. change (bpow radix2 (-1)) with (/ 2). rewrite Rabs_pos_eq; lra. }
  assert (B : b64 (3 / 10) - 3 / 10 <= 1 / 1000000000000000 /\ - (1 / 1000000000000000) <= b64 (3 / 10) - 3 / 10).
  { change (bpow radix2 (-1 - 53)) with (/ 18014398509481984) in E. apply Rabs_le_inv in E. lra. }
  unfold c32. apply (Rle_antisym).
  - rewrite <- (b32_id (IZR 10066330 * bpow radix2 (-25))) by (apply is_b32_dyadic; lia). apply b32_mono. change (bpow radix2 (-25)) with (/ 33554432). lra.
  - destruct (Rle_or_lt (IZR 10066330 * bpow radix2 (-25)) (b32 (b64 (3 / 10)))) as [|C]; [assumption|exfalso].
    assert (G : b32 (b64 (3 / 10)) <= IZR 10066329 * bpow radix2 (-25)).
    { assert (P : b32 (b64 (3 / 10)) <= pred radix2 exp32 (IZR 10066330 * bpow radix2 (-25))).
      { apply pred_ge_gt; [apply FLT_exp_valid; reflexivity|apply is_b32_round|apply is_b32_dyadic; lia|exact C]. }
      eapply Rle_trans; [exact P|]. rewrite pred_eq_pos by (change (bpow radix2 (-25)) with (/ 33554432); lra). unfold pred_pos.
      assert (M : mag radix2 (IZR 10066330 * bpow radix2 (-25)) = (-1)%Z :> Z).
      { apply mag_unique. change (bpow radix2 (-1 - 1)) with (/ 4). change (bpow radix2 (-1)) with (/ 2). change (bpow radix2 (-25)) with (/ 33554432). rewrite Rabs_pos_eq; lra. }
      rewrite M. rewrite Req_bool_false by (change (bpow radix2 (-25)) with (/ 33554432); change (bpow radix2 (-1 - 1)) with (/ 4); lra).
      rewrite ulp_neq_0 by (change (bpow radix2 (-25)) with (/ 33554432); lra). unfold cexp. rewrite M. change (exp32 (-1)) with (-25)%Z. change (bpow radix2 (-25)) with (/ 33554432). lra. }
    pose proof (b32_error_lt (-1) (b64 (3 / 10)) ltac:(lia)) as Er. change (bpow radix2 (-1)) with (/ 2) in Er. change (bpow radix2 (-1 - 25)) with (/ 67108864) in Er. change (bpow radix2 (-25)) with (/ 33554432) in *.
    assert (H : Rabs (b64 (3 / 10)) < / 2) by (rewrite Rabs_pos_eq; lra). specialize (Er H). apply Rabs_le_inv in Er. lra.
Qed.
Lemma c32_bounds : 0.3 <= c32 <= 0.30000002.
Proof. rewrite c32_value. change (bpow radix2 (-25)) with (/ 33554432). lra. Qed.

(** the reading as computed *)
Definition mB (w : Z) : R := b64 (b64 (IZR (position w) * 360) / 16385).
Lemma mB_eq w : mB w = b64 (reading w).
Proof.
  unfold mB, reading. f_equal. f_equal. rewrite <- mult_IZR. rewrite b64_of_int; [reflexivity|]. pose proof (position_range w). lia.
Qed.
Lemma mB_range w : 0 <= mB w <= 359.9571.
Proof.
  rewrite mB_eq. pose proof (reading_range w) as [H1 H2]. split; [apply (b64_floor_ge _ 0); [lia|exact H1]|].
  pose proof (b64_error 9 (reading w) ltac:(lia)) as E. change (bpow radix2 9) with 512 in E. change (bpow radix2 (9 - 53)) with (/ 17592186044416) in E.
  assert (H : Rabs (reading w) <= 512) by (rewrite Rabs_pos_eq; lra). specialize (E H). apply Rabs_le_inv in E. lra.
Qed.
Lemma mB_close w : Rabs (mB w - reading w) <= / 1000000000000.
Proof.
  rewrite mB_eq. pose proof (reading_range w). pose proof (b64_error 9 (reading w) ltac:(lia)) as E. change (bpow radix2 9) with 512 in E.
  eapply Rle_trans; [apply E; rewrite Rabs_pos_eq; lra|]. change (bpow radix2 (9 - 53)) with (/ 17592186044416). lra.
Qed.
Definition stepB (h m : R) : R := b32 (b64 (h + b64 (c32 * b64 (m - h)))).
Lemma filter_B (h : F NumB) w : filter_heading NumB h w = if verifyAmtCheckbits w then stepB h (mB w) else h.
Proof.
  unfold filter_heading, stepB, mB, c32. destruct (verifyAmtCheckbits w); [|reflexivity]. rewrite land_position. pose proof (position_range w).
  cbn [f32 fadd fmul fdiv fsub fZ fq NumB HEADING_LOWPASS]. unfold HEADING_LOWPASS. cbn [f32 fq NumB].
  rewrite (b64_of_int (position w)), (b32_of_int (position w)), (b64_of_int 360), (b64_of_int 16385) by lia. reflexivity.
Qed.
Lemma stepB_low h m : is_b32 h -> 0 <= h -> 0 <= m -> 0 <= stepB h m.
Proof.
  intros Hf Hh Hm. unfold stepB. apply (b32_floor_ge _ 0); [lia|]. apply (b64_floor_ge _ 0); [lia|].
  assert (- h <= b64 (c32 * b64 (m - h))); [|lra]. pose proof c32_bounds.
  assert (F : is_b64 (- h)) by (apply generic_format_opp, is_b32_b64, Hf).
  rewrite <- (b64_id (- h)) by exact F. apply b64_mono. assert (- h <= b64 (m - h)) by (rewrite <- (b64_id (- h)) at 1 by exact F; apply b64_mono; lra). nra.
Qed.
Lemma stepB_bound h m : 0 <= h <= 360 -> 0 <= m <= 360 -> Rabs (stepB h m - m) <= 7 / 10 * Rabs (h - m) + / 65000.
Proof.
  intros Hh Hm. unfold stepB. pose proof c32_bounds as Hc. set (c := c32) in *. clearbody c.
  set (a := b64 (m - h)). assert (Ha : Rabs (a - (m - h)) <= / 17592186044416).
  { pose proof (b64_error 9 (m - h) ltac:(lia)) as E. change (bpow radix2 9) with 512 in E. change (bpow radix2 (9 - 53)) with (/ 17592186044416) in E. apply E. apply Rabs_le. lra. }
  set (b := b64 (c * a)). assert (Hb : Rabs (b - c * a) <= / 17592186044416).
  { pose proof (b64_error 9 (c * a) ltac:(lia)) as E. change (bpow radix2 9) with 512 in E. change (bpow radix2 (9 - 53)) with (/ 17592186044416) in E. apply E.
    apply Rabs_le_inv in Ha. apply Rabs_le. nra. }
  clearbody a b. apply Rabs_le_inv in Ha, Hb.
  assert (D : Rabs (h + b - m - (1 - c) * (h - m)) <= / 8000000000000). { apply Rabs_le. nra. }
  assert (Hs : - 1 <= h + b <= 361). { apply Rabs_le_inv in D. nra. }
  set (x := b64 (h + b)). assert (Hx : Rabs (x - (h + b)) <= / 17592186044416).
  { pose proof (b64_error 9 (h + b) ltac:(lia)) as E. change (bpow radix2 9) with 512 in E. change (bpow radix2 (9 - 53)) with (/ 17592186044416) in E. apply E. apply Rabs_le. lra. }
  clearbody x. apply Rabs_le_inv in Hx.
  assert (Hy : Rabs (b32 x - x) <= / 65536).
  { pose proof (b32_error_lt 9 x ltac:(lia)) as E. change (bpow radix2 9) with 512 in E. change (bpow radix2 (9 - 25)) with (/ 65536) in E. apply E. apply Rabs_lt. lra. }
  apply Rabs_le_inv in Hy, D. set (y := b32 x) in *. clearbody y.
  assert (G : Rabs ((1 - c) * (h - m)) <= 7 / 10 * Rabs (h - m)). { rewrite Rabs_mult. rewrite (Rabs_pos_eq (1 - c)) by lra. pose proof (Rabs_pos (h - m)). nra. }
  apply Rabs_le_inv in G. apply Rabs_le. lra.
Qed.
Lemma stepB_high h m : 0 <= h <= 359.96875 -> 0 <= m <= 359.9571 -> stepB h m <= 359.96875.
Proof.
  intros Hh Hm. set (U := 359.96875) in *. assert (FU : is_b32 U). { unfold U. replace 359.96875 with (IZR 11519 * bpow radix2 (-5)) by (change (bpow radix2 (-5)) with (/ 32); lra). apply is_b32_dyadic; lia. }
  unfold stepB. rewrite <- (b32_id U) by exact FU. apply b32_mono. rewrite <- (b64_id U) by (apply is_b32_b64; exact FU). apply b64_mono.
  pose proof c32_bounds as Hc. destruct (Rle_or_lt m h) as [Hmh|Hmh].
  - assert (b64 (m - h) <= 0) by (apply (b64_le_int _ 0); [lia|lra]). assert (b64 (c32 * b64 (m - h)) <= 0) by (apply (b64_le_int _ 0); [lia|nra]). lra.
  - pose proof (b64_error 9 (m - h) ltac:(lia)) as E1. change (bpow radix2 9) with 512 in E1. change (bpow radix2 (9 - 53)) with (/ 17592186044416) in E1.
    assert (H1 : Rabs (m - h) <= 512) by (rewrite Rabs_pos_eq; lra). specialize (E1 H1). set (a := b64 (m - h)) in *. clearbody a. apply Rabs_le_inv in E1.
    pose proof (b64_error 9 (c32 * a) ltac:(lia)) as E2. change (bpow radix2 9) with 512 in E2. change (bpow radix2 (9 - 53)) with (/ 17592186044416) in E2.
    assert (H2 : Rabs (c32 * a) <= 512) by (apply Rabs_le; nra). specialize (E2 H2). apply Rabs_le_inv in E2. unfold U. nra.
Qed.

Definition fine (h : R) : Prop := is_b32 h /\ 0 <= h <= 359.96875.
Lemma fine_step h w : fine h -> fine (filter_heading NumB h w).
Proof.
  intros [F H]. rewrite filter_B. destruct (verifyAmtCheckbits w); [|split; assumption]. pose proof (mB_range w) as Hm. split; [apply is_b32_round|]. split.
  - apply stepB_low; [exact F|lra|lra].
  - apply stepB_high; assumption.
Qed.
Lemma fine_boot : fine (d_heading (boot NumB)).
Proof. unfold fine. cbn [boot d_heading fZ NumB]. rewrite b64_of_int by lia. split; [apply is_b32_int; lia|lra]. Qed.
Section Device_arithmetic.
Context (T : Trig NumB) (pf : platform) (oor : conv_policy) (lc : libc NumB).
Context (qsort : list (vpair NumB) -> list (vpair NumB)) (m9 : res (F NumB)) (junk : option (F NumB * F NumB)).
Context (ftext : nat -> F NumB -> list Z) (left_first : bool) (cfg : config).
Notation history := (history NumB T pf oor lc qsort m9 junk ftext left_first cfg).
Notation frames := (frames NumB T pf oor lc qsort m9 junk ftext left_first cfg).
Lemma fine_history evs d d' o : history d evs = Ok (d', o) -> sized NumB d -> all_bytes NumB evs -> fine (d_heading d) -> fine (d_heading d').
Proof.
  intros E S Hb Hf. rewrite (heading_fold _ _ _ _ _ _ _ _ _ _ _ _ _ _ _ E S Hb). revert Hf. generalize (d_heading d). induction (frames d evs) as [|w ws IH]; intros h Hf; cbn [fold_left]; [exact Hf|]. apply IH, fine_step, Hf.
Qed.
(** With the device's float and double arithmetic the heading stays in [0, 360) for ever ... *)
Theorem C52_heading_range_ieee : forall evs d o, history (boot NumB) evs = Ok (d, o) -> all_bytes NumB evs -> 0 <= d_heading d < 360.
Proof. intros evs d o E Hb. destruct (fine_history _ _ _ _ E (boot_sized NumB) Hb fine_boot) as [_ H]. lra. Qed.
(** ... and converges to a constant reading, up to a ten-thousandth of a degree. *)
Theorem C52_converges_ieee : forall evs1 d o1 evs d' o p, history (boot NumB) evs1 = Ok (d, o1) -> all_bytes NumB evs1 ->
  history d evs = Ok (d', o) -> all_bytes NumB evs ->
  (forall w, In w (frames d evs) -> good_frame w -> position w = p) ->
  exists n, n = length (filter verifyAmtCheckbits (frames d evs)) /\
    Rabs (d_heading d' - IZR p * 360 / 16385) <= (7 / 10) ^ n * Rabs (d_heading d - IZR p * 360 / 16385) + 1 / 10000.
Proof.
  intros evs1 d o1 evs d' o p E1 Hb1 E Hb Hp. eexists. split; [reflexivity|].
  pose proof (fine_history _ _ _ _ E1 (boot_sized NumB) Hb1 fine_boot) as Hf. apply history_summary in E1 as S1; [|apply boot_sized]. destruct S1 as [S1 _].
  rewrite (heading_fold _ _ _ _ _ _ _ _ _ _ _ _ _ _ _ E S1 Hb).
  assert (G : forall ws h, fine h -> (forall w, In w ws -> good_frame w -> position w = p) ->
    Rabs (fold_left (filter_heading NumB) ws h - IZR p * 360 / 16385) <= (7 / 10) ^ length (filter verifyAmtCheckbits ws) * (Rabs (h - IZR p * 360 / 16385) - 1 / 12000) + 1 / 12000).
  { induction ws as [|w ws IH]; intros h Hh Hw; cbn [fold_left filter].
    - cbn [length pow]. lra.
    - assert (Hw' : forall v, In v ws -> good_frame v -> position v = p) by (intros; apply Hw; [right; assumption|assumption]).
      eapply Rle_trans; [apply IH; [apply fine_step; exact Hh|exact Hw']|]. rewrite filter_B. destruct (verifyAmtCheckbits w) eqn:Ev; [|lra].
      cbn [length pow]. assert (Ep : position w = p) by (apply Hw; [left; reflexivity|apply verify_good; exact Ev]).
      assert (Er : reading w = IZR p * 360 / 16385) by (unfold reading; rewrite Ep; reflexivity). rewrite <- Er.
      pose proof (mB_range w) as Hm. pose proof (mB_close w) as Hc. pose proof (reading_range w) as Hr. destruct Hh as [_ Hh].
      pose proof (stepB_bound h (mB w) ltac:(lra) ltac:(lra)) as B.
      assert (B2 : Rabs (stepB h (mB w) - reading w) <= 7 / 10 * Rabs (h - reading w) + 1 / 50000).
      { set (s := stepB h (mB w)) in *. replace (s - reading w) with ((s - mB w) + (mB w - reading w)) by ring.
        eapply Rle_trans; [apply Rabs_triang|]. assert (Rabs (h - mB w) <= Rabs (h - reading w) + Rabs (mB w - reading w)).
        { replace (h - mB w) with ((h - reading w) + - (mB w - reading w)) by ring. eapply Rle_trans; [apply Rabs_triang|]. rewrite Rabs_Ropp. lra. }
        lra. }
      set (q := (7 / 10) ^ length (filter verifyAmtCheckbits ws)). assert (0 <= q) by (apply pow_le; lra). nra. }
  eapply Rle_trans; [apply G; [exact Hf|exact Hp]|]. set (q := (7 / 10) ^ _). assert (0 <= q) by (apply pow_le; lra). nra.
Qed.
End Device_arithmetic.

(** ** C87.  The filter does not know that 0 and 360 degrees are the same direction: when the telescope turns across
    north, from 350..360 to 0..10 degrees, the reported heading swings through 245..256 degrees, i.e. it is more
    than 90 degrees away from both. *)
Theorem C87_heading_swings_at_north_refuted : forall h w, 350 <= h < 360 -> good_frame w -> reading w <= 10 ->
  245 <= filter_heading NumR h w <= 255.
Proof. intros h w Hh Hg Hr. rewrite filter_R. apply verify_good in Hg. rewrite Hg. pose proof (reading_range w). lra. Qed.
Theorem C87_heading_swings_at_north_ieee_refuted : forall h w, 350 <= h < 360 -> good_frame w -> reading w <= 10 ->
  244 <= filter_heading NumB h w <= 256.
Proof.
  intros h w Hh Hg Hr. rewrite filter_B. apply verify_good in Hg. rewrite Hg. pose proof (reading_range w) as H1. pose proof (mB_range w) as H2. pose proof (mB_close w) as H3. apply Rabs_le_inv in H3.
  unfold stepB. pose proof c32_bounds as Hc. set (c := c32) in *. clearbody c. set (m := mB w) in *. clearbody m.
  pose proof (b64_error 9 (m - h) ltac:(lia)) as E1. change (bpow radix2 9) with 512 in E1. change (bpow radix2 (9 - 53)) with (/ 17592186044416) in E1.
  assert (K1 : Rabs (m - h) <= 512) by (apply Rabs_le; lra). specialize (E1 K1). set (a := b64 (m - h)) in *. clearbody a. apply Rabs_le_inv in E1.
  pose proof (b64_error 9 (c * a) ltac:(lia)) as E2. change (bpow radix2 9) with 512 in E2. change (bpow radix2 (9 - 53)) with (/ 17592186044416) in E2.
  assert (K2 : Rabs (c * a) <= 512) by (apply Rabs_le; nra). specialize (E2 K2). set (b := b64 (c * a)) in *. clearbody b. apply Rabs_le_inv in E2.
  assert (K3 : 244.5 <= h + b <= 255.5) by nra.
  split; [apply (b32_floor_ge _ 244); [lia|]; apply (b64_floor_ge _ 244); [lia|lra]|apply (b32_le_int _ 256); [lia|]; apply (b64_le_int _ 256); [lia|lra]].
Qed.
(** non-vacuous: 1 degree *)
Example C87_nonvacuous : exists w, good_frame w /\ 0 < reading w <= 10.
Proof. exists 46%Z. split; [split; reflexivity|]. unfold reading, position. change (46 mod 16384)%Z with 46%Z. lra. Qed.

(** ** C88.  The encoder has 16384 positions per turn; position p means p * 360 / 16384 degrees.  The firmware divides
    by 16385: only position 0 is read exactly; the error stays below 0.022 degrees. *)
Theorem C88_reading_divisor_refuted : forall w, (0 < position w)%Z -> reading w < IZR (position w) * 360 / 16384.
Proof. intros w H. apply IZR_lt in H. unfold reading. lra. Qed.
Theorem C88_reading_error_partial : forall w, Rabs (reading w - IZR (position w) * 360 / 16384) < 0.022.
Proof. intros w. unfold reading. destruct (position_range w) as [H1 H2]. apply IZR_le in H1, H2. apply Rabs_lt. lra. Qed.

(** ** C99.  C++ does not say which transfer of (transfer(0) << 8) | transfer(0) happens first.  If the compiler
    evaluates the right one first, the word is assembled with its bytes swapped; the check bits never notice it, and
    position 3 is taken for position 768. *)
Lemma word_bit a b k : (0 <= a < 256)%Z -> (0 <= b < 256)%Z -> (0 <= k < 8)%Z ->
  Z.testbit (256 * a + b) k = Z.testbit b k /\ Z.testbit (256 * a + b) (k + 8) = Z.testbit a k.
Proof.
  intros Ha Hb Hk. replace (256 * a + b)%Z with (a * 2 ^ 8 + b)%Z by (change (2 ^ 8)%Z with 256%Z; ring). split.
  - rewrite <- (Z.mod_pow2_bits_low (a * 2 ^ 8 + b) 8 k) by lia. rewrite Z.add_comm, Z.mod_add by (cbn; lia).
    rewrite Z.mod_small by (cbn; lia). reflexivity.
  - rewrite <- Z.div_pow2_bits by lia. rewrite Z.div_add_l by (cbn; lia). rewrite Z.div_small by (cbn; lia). f_equal. lia.
Qed.
Lemma swap_good a b : (0 <= a < 256)%Z -> (0 <= b < 256)%Z -> good_frame (256 * a + b) -> good_frame (256 * b + a).
Proof.
  intros Ha Hb. assert (K : forall x y, (0 <= x < 256)%Z -> (0 <= y < 256)%Z ->
    ones even_group (256 * x + y) = (ones [0; 2; 4; 6]%Z y + ones [0; 2; 4; 6]%Z x)%nat /\
    ones odd_group (256 * x + y) = (ones [1; 3; 5; 7]%Z y + ones [1; 3; 5; 7]%Z x)%nat).
  { intros x y Hx Hy. unfold ones, even_group, odd_group. cbn [filter].
    destruct (word_bit x y 0 Hx Hy ltac:(lia)) as [-> E0], (word_bit x y 1 Hx Hy ltac:(lia)) as [-> E1],
      (word_bit x y 2 Hx Hy ltac:(lia)) as [-> E2], (word_bit x y 3 Hx Hy ltac:(lia)) as [-> E3],
      (word_bit x y 4 Hx Hy ltac:(lia)) as [-> E4], (word_bit x y 5 Hx Hy ltac:(lia)) as [-> E5],
      (word_bit x y 6 Hx Hy ltac:(lia)) as [-> E6], (word_bit x y 7 Hx Hy ltac:(lia)) as [-> E7].
    cbn [Z.add Pos.add Pos.succ] in E0, E1, E2, E3, E4, E5, E6, E7. rewrite E0, E1, E2, E3, E4, E5, E6, E7.
    split.
    - destruct (Z.testbit y 0), (Z.testbit y 2), (Z.testbit y 4), (Z.testbit y 6), (Z.testbit x 0), (Z.testbit x 2), (Z.testbit x 4), (Z.testbit x 6); reflexivity.
    - destruct (Z.testbit y 1), (Z.testbit y 3), (Z.testbit y 5), (Z.testbit y 7), (Z.testbit x 1), (Z.testbit x 3), (Z.testbit x 5), (Z.testbit x 7); reflexivity. }
  unfold good_frame. destruct (K a b Ha Hb) as [-> ->], (K b a Hb Ha) as [-> ->]. rewrite !(Nat.add_comm (ones _ a)). auto.
Qed.
Theorem C99_swapped_frames_pass_the_check : forall (e : env NumR), spi_bytes NumR e ->
  (good_frame (frame NumR true e) <-> good_frame (frame NumR false e)).
Proof. intros e [H1 H2]. unfold frame. destruct (e_spi e) as [a b]. cbn [fst snd] in *. split; apply swap_good; assumption. Qed.
Theorem C99_byte_order_unspecified_refuted : exists e : env NumR, spi_bytes NumR e /\
  good_frame (heading_raw NumR true e) /\ position (heading_raw NumR true e) = 3%Z /\
  good_frame (heading_raw NumR false e) /\ position (heading_raw NumR false e) = 768%Z.
Proof.
  exists (Env NumR 0 (0, 0, 0) (0, 3)%Z true true true None [] [] [] true 0). split; [split; cbn; lia|]. repeat split; reflexivity.
Qed.
