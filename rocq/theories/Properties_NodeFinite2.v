(** C171: what the Node server sends on actual IEEE doubles: the position message carries the position, and every goto of a connection is
    answered with its own words. *)
From Verif Require Import Base Num M_Helper M_Telescope M_Node S_Stellarium M_Stellarium S_Sky S_SkyIEEE P_Sky P_SkyIEEE P_Round P_Helper2 P_NumCorr S_Libm P_Libm P_Finite P_LstFinite P_Node P_NodeIEEE Properties_Finite Properties_Node Properties_NodeFinite.
From Coq Require Import Reals Lra Lia Floats.SpecFloat.
From Flocq Require Import Core IEEE754.BinarySingleNaN.
Open Scope R_scope.
Notation length := List.length.

(** ** lemmas *)
Definition same_place (n : Z) (p : equatorial NumSF) (p' : equatorial NumB) : Prop := mb n (ra p) (ra p') /\ mb n (dec p) (dec p').
Lemma mb_ra_scale : mb 32 (ra_scale NumSF) (ra_scale NumB).
Proof. unfold ra_scale. apply mb_divZ; [lia|apply mb_int; lia|lia]. Qed.
Lemma mb_dec_scale : mb 32 (dec_scale NumSF) (dec_scale NumB).
Proof. unfold dec_scale. apply mb_divZ; [lia|apply mb_int; lia|lia]. Qed.
Lemma write32_agrees min max s (x : R) : (Z.abs min <= 2 ^ 53)%Z -> (Z.abs max <= 2 ^ 53)%Z -> means s x -> write32 NumSF min max s = write32 NumB min max x.
Proof.
  intros B1 B2 M. unfold write32. cbn [flt ftrunc NumSF NumB].
  rewrite (means_lt (fZ NumSF max) s (fZ NumB max) x), (means_lt s (fZ NumSF min) x (fZ NumB min)), (means_trunc s x) by (try apply meansZ; assumption). reflexivity.
Qed.
Lemma pack_agrees now p p' : same_place 12 p p' -> packCurrentPosition NumSF now p = packCurrentPosition NumB now p'.
Proof.
  intros [A B]. unfold packCurrentPosition, writeUInt32LE, writeInt32LE.
  rewrite (write32_agrees 0 0xffffffff (fmul NumSF (ra p) (ra_scale NumSF)) (fmul NumB (ra p') (ra_scale NumB))); [|lia|lia|apply (mb_fmul 12 32); [lia|exact A|exact mb_ra_scale]].
  rewrite (write32_agrees (-0x80000000) 0x7fffffff (fmul NumSF (dec p) (dec_scale NumSF)) (fmul NumB (dec p') (dec_scale NumB))); [|lia|lia|apply (mb_fmul 12 32); [lia|exact B|exact mb_dec_scale]].
  reflexivity.
Qed.
Lemma double_same n (p : equatorial NumSF) (H D : R) : is_double (ra p) H -> is_double (dec p) D -> Rabs H <= bpow radix2 n -> Rabs D <= bpow radix2 n -> same_place n p (Equ (H : F NumB) (D : F NumB)).
Proof. intros A B C E. apply double_means in A, B. split; (split; [assumption|]); assumption. Qed.

(** ** the position message *)
(** Every position of the sky short of 24 h is sent, in its own words (2^32 units to a turn). *)
Theorem C171_position_sent : forall now (p : equatorial NumSF) (H D : R), is_double (ra p) H -> is_double (dec p) D ->
  0 <= H <= 24 - 1 / 10 ^ 8 -> Rabs D <= 91 ->
  exists r d, packCurrentPosition NumSF now p = Ret (current_position (now * 1000) r d) /\ (0 <= r < 2 ^ 32)%Z /\ (- 2 ^ 31 <= d < 2 ^ 31)%Z /\
    Rabs (IZR r * 360 / 4294967296 - 15 * H) <= 9 / 10 ^ 8 /\ Rabs (IZR d * 360 / 4294967296 - D) <= 9 / 10 ^ 8.
Proof.
  intros now p H D MH MD BH BD. apply Rabs_le_inv in BD.
  rewrite (pack_agrees now p _ (double_same 12 p H D MH MD ltac:(simpl bpow; apply Rabs_le; lra) ltac:(simpl bpow; apply Rabs_le; lra))).
  assert (SR : exists S, ra_scale NumB = S /\ 2147483648 / 12 - 1 / 10 ^ 7 <= S <= 2147483648 / 12 + 1 / 10 ^ 7).
  { unfold ra_scale. cbn [fdiv fZ NumB]. rewrite (b64_of_int 0x80000000), (b64_of_int 12) by lia. step 28%Z (2147483648 / 12) E. exists y. split; [reflexivity|lra]. }
  assert (SD : exists S, dec_scale NumB = S /\ 1073741824 / 90 - 1 / 10 ^ 8 <= S <= 1073741824 / 90 + 1 / 10 ^ 8).
  { unfold dec_scale. cbn [fdiv fZ NumB]. rewrite (b64_of_int 0x40000000), (b64_of_int 90) by lia. step 24%Z (1073741824 / 90) E. exists y. split; [reflexivity|lra]. }
  destruct SR as (S1 & E1 & B1), SD as (S2 & E2 & B2).
  assert (W1 : exists v, fmul NumB H (ra_scale NumB) = v /\ 0 <= v <= 4294967295 /\ Rabs (v - H * (2147483648 / 12)) <= 1 / 10 ^ 5).
  { rewrite E1. exists (b64 (H * S1)). split; [reflexivity|].
    assert (Q : Rabs (H * S1 - H * (2147483648 / 12)) <= 24 / 10 ^ 7).
    { replace (H * S1 - H * (2147483648 / 12)) with (H * (S1 - 2147483648 / 12)) by ring. rewrite Rabs_mult, (Rabs_pos_eq H) by lra. replace (24 / 10 ^ 7) with (24 * (1 / 10 ^ 7)) by lra.
      apply Rmult_le_compat; [lra|apply Rabs_pos|lra|apply Rabs_le; lra]. }
    assert (P0 : 0 <= H * S1) by (apply Rmult_le_pos; lra).
    assert (P1 : 0 <= b64 (H * S1)) by (rewrite <- (b64_of_int 0) by lia; apply round_le; [apply FLT_exp_valid; reflexivity|apply valid_rnd_N|exact P0]).
    apply Rabs_le_inv in Q. revert P1. step 33%Z (H * S1) K. intros P1. split; [lra|]. apply Rabs_le. lra. }
  assert (W2 : exists v, fmul NumB D (dec_scale NumB) = v /\ Rabs (v - D * (1073741824 / 90)) <= 1 / 10 ^ 5).
  { rewrite E2. exists (b64 (D * S2)). split; [reflexivity|].
    assert (Q : Rabs (D * S2 - D * (1073741824 / 90)) <= 91 / 10 ^ 8).
    { replace (D * S2 - D * (1073741824 / 90)) with (D * (S2 - 1073741824 / 90)) by ring. rewrite Rabs_mult. replace (91 / 10 ^ 8) with (91 * (1 / 10 ^ 8)) by lra.
      apply Rmult_le_compat; [apply Rabs_pos|apply Rabs_pos|apply Rabs_le; lra|apply Rabs_le; lra]. }
    apply Rabs_le_inv in Q. step 31%Z (D * S2) K. apply Rabs_le. lra. }
  destruct W1 as (v1 & F1 & P1 & Q1), W2 as (v2 & F2 & Q2). apply Rabs_le_inv in Q1, Q2.
  assert (TR : forall x, Rabs (IZR (Ztrunc x) - x) < 1).
  { intros x. destruct (Rle_or_lt 0 x).
    - rewrite Ztrunc_floor by assumption. pose proof (Zfloor_lb x). pose proof (Zfloor_ub x). apply Rabs_def1; lra.
    - rewrite Ztrunc_ceil by lra. pose proof (Zceil_lb x). pose proof (Zceil_ub x). apply Rabs_def1; lra. }
  pose proof (TR v1) as T1. pose proof (TR v2) as T2. apply Rabs_def2 in T1, T2.
  exists (Ztrunc v1), (Ztrunc v2). split; [|split; [|split; [|split]]].
  - apply pack_words; cbn [ra dec].
    + rewrite F1. apply write32_B; [lia|lia|lra].
    + rewrite F2. apply write32_B; [lia|lia|lra].
  - split; [rewrite Ztrunc_floor by lra; apply Zfloor_lub; lra|]. apply lt_IZR. change (2 ^ 32)%Z with 4294967296%Z. lra.
  - change (- 2 ^ 31)%Z with (-2147483648)%Z. change (2 ^ 31)%Z with 2147483648%Z. split; [apply le_IZR|apply lt_IZR]; lra.
  - apply Rabs_le. lra.
  - apply Rabs_le. lra.
Qed.
(** A right ascension of 24 h or more, or below 0, is not sent: RangeError. *)
Theorem C171_position_not_sent : forall now (p : equatorial NumSF) (H D : R), is_double (ra p) H -> is_double (dec p) D -> Rabs H <= 1000 -> Rabs D <= 1000 ->
  24 <= H \/ H <= - (1 / 10 ^ 6) -> packCurrentPosition NumSF now p = Throw.
Proof.
  intros now p H D MH MD BH BD C. 
  rewrite (pack_agrees now p _ (double_same 12 p H D MH MD ltac:(simpl bpow; lra) ltac:(simpl bpow; lra))). apply Rabs_le_inv in BH.
  pose proof raS as [S1 S2]. unfold packCurrentPosition, writeUInt32LE, write32. cbn [ra dec].
  assert (E : flt NumB (fZ NumB 4294967295) (fmul NumB H (ra_scale NumB)) || flt NumB (fmul NumB H (ra_scale NumB)) (fZ NumB 0) = true).
  2:{ rewrite E. reflexivity. }
  cbn [flt fZ fmul NumB]. rewrite (b64_of_int 4294967295), (b64_of_int 0) by lia.
  assert (SR : 2147483648 / 12 - 1 / 10 ^ 7 <= ra_scale NumB).
  { unfold ra_scale. cbn [fdiv fZ NumB]. rewrite (b64_of_int 0x80000000), (b64_of_int 12) by lia. step 28%Z (2147483648 / 12) E. lra. }
  set (S := ra_scale NumB) in *. clearbody S. change (F NumB) with R in *. destruct C as [C|C].
  - assert (P : 24 * (2147483648 / 12 - 1 / 10 ^ 7) <= H * S) by (apply Rmult_le_compat; lra).
    assert (P2 : 4294967295 + 1 / 4 <= b64 (4294967295 + 1 / 2)).
    { step 33%Z (4294967295 + 1 / 2) E. lra. }
    assert (P3 : b64 (4294967295 + 1 / 2) <= b64 (H * S)) by (apply round_le; [apply FLT_exp_valid; reflexivity|apply valid_rnd_N|lra]).
    rewrite (Rlt_bool_true 4294967295) by lra. reflexivity.
  - assert (P : H * S <= - 1). { assert (1 <= - H * S); [|lra]. assert ((1 / 10 ^ 6) * 178956970 <= - H * S) by (apply Rmult_le_compat; lra). lra. }
    assert (P3 : b64 (H * S) <= b64 (IZR (-1))) by (apply round_le; [apply FLT_exp_valid; reflexivity|apply valid_rnd_N|exact P]).
    rewrite (b64_of_int (-1)) in P3 by lia. rewrite (Rlt_bool_true (b64 (H * S))) by lra. apply Bool.orb_true_r.
Qed.
Print Assumptions C171_position_sent.

(** ** a whole connection *)
(** the time (ms), the clock and the bytes of each message received; what is written for each of them *)
Fixpoint connection (T : Trig NumSF) (t : ntele NumSF) (msgs : list (Z * clock * list Z)) : js (list (option (list Z))) :=
  match msgs with
  | [] => Ret []
  | (now, cl, data) :: rest =>
      let! (answer, t') := on_data NumSF now cl t data in
      let! answers := connection T t' rest in Ret (answer :: answers)
  end.
Definition is_goto (data : list Z) : Prop := (20 <= length data)%nat /\ not_sync data.
(** the words that one unit more or less takes over an end of the range *)
Definition extreme (data : list Z) : Prop := field 12 4 data = (2 ^ 32 - 1)%Z \/ as_signed (field 16 4 data) = (- 2 ^ 31)%Z \/ as_signed (field 16 4 data) = (2 ^ 31 - 1)%Z.
(** a goto is answered with its own words (each at most one unit off), any other message with what the NexStar protocol says *)
Definition answered (m : Z * clock * list Z) (answer : option (list Z)) : Prop :=
  let '(now, cl, data) := m in
  (is_goto data -> exists r d, answer = Some (current_position (now * 1000) r d) /\ (Z.abs (r - field 12 4 data) <= 1)%Z /\ (Z.abs (d - as_signed (field 16 4 data)) <= 1)%Z) /\
  (~ is_goto data -> answer = match node_nexstar cl data with [] => None | reply => Some reply end).

Lemma is_double_b64 s (r : R) : is_double s r -> is_b64 r.
Proof. intros H. apply double_means in H. destruct H as (f & _ & _ & <-). apply generic_format_B2R. Qed.
Lemma goto_doubles now cl (t : ntele NumSF) (H D : R) data : is_double (ra (position NumSF t)) H -> is_double (dec (position NumSF t)) D -> Rabs H <= 512 -> Rabs D <= 512 ->
  bytes_ok data -> is_goto data -> ~ extreme data ->
  exists r d t', on_data NumSF now cl t data = Ret (Some (current_position (now * 1000) r d), t') /\ position NumSF t' = position NumSF t /\
    (Z.abs (r - field 12 4 data) <= 1)%Z /\ (Z.abs (d - as_signed (field 16 4 data)) <= 1)%Z.
Proof.
  intros MH MD BH BD Hb [HL Hs] He. pose proof (field_range data 12 4 Hb ltac:(lia)) as R1. pose proof (field_range data 16 4 Hb ltac:(lia)) as R2.
  assert (Hd : (- 2 ^ 31 <= as_signed (field 16 4 data) < 2 ^ 31)%Z). { unfold as_signed. change (2 ^ (8 * Z.of_nat 4))%Z with (2 ^ 32)%Z in R2. destruct (Z.ltb_spec (field 16 4 data) (2 ^ 31)); lia. }
  change (2 ^ (8 * Z.of_nat 4))%Z with (2 ^ 32)%Z in R1. unfold extreme in He.
  set (t' := NTele NumB (Equ (H : F NumB) (D : F NumB)) (Equ (0 : F NumB) (0 : F NumB))).
  destruct (C60_goto_answered_ieee now cl t' data Hb HL Hs (is_double_b64 _ _ MH) BH BD ltac:(lia) ltac:(lia)) as (r & d & t1 & E & K1 & K2).
  exists r, d, (calibrate NumSF t (Equ (fdiv NumSF (fZ NumSF (field 12 4 data)) (ra_scale NumSF)) (fdiv NumSF (fZ NumSF (P_Node.signed32 (field 16 4 data))) (dec_scale NumSF)))).
  split; [|split; [reflexivity|split; assumption]].
  destruct (unpack_ok NumSF data Hb HL) as (l & ty & us & U). destruct (unpack_ok NumB data Hb HL) as (l' & ty' & us' & U').
  unfold on_data in E |- *. rewrite nexstar_none in E |- * by assumption.
  replace (20 <=? Z.of_nat (length data))%Z with true in E |- * by (symmetry; apply Z.leb_le; lia).
  rewrite U. rewrite U' in E. cbn [jbind go_ra go_dec] in E |- *.
  set (u := calibrate NumSF t _). set (u' := calibrate NumB t' _) in E.
  assert (S : same_place 12 (getCorrected NumSF u) (getCorrected NumB u')).
  { destruct (double_same 10 _ H D MH MD ltac:(simpl bpow; lra) ltac:(simpl bpow; lra)) as [P1 P2]. cbn [ra dec] in P1, P2.
    assert (SR : bpow radix2 27 <= Rabs (ra_scale NumB)) by (pose proof raS; simpl bpow; rewrite Rabs_pos_eq; lra).
    assert (SD : bpow radix2 23 <= Rabs (dec_scale NumB)) by (pose proof decS; simpl bpow; rewrite Rabs_pos_eq; lra).
    assert (Q1 : mb 5 (fdiv NumSF (fZ NumSF (field 12 4 data)) (ra_scale NumSF)) (fdiv NumB (fZ NumB (field 12 4 data)) (ra_scale NumB))).
    { apply (mb_div 32 27); [lia|apply mb_int; lia|apply mb_ra_scale|exact SR]. }
    assert (Q2 : mb 9 (fdiv NumSF (fZ NumSF (P_Node.signed32 (field 16 4 data))) (dec_scale NumSF)) (fdiv NumB (fZ NumB (P_Node.signed32 (field 16 4 data))) (dec_scale NumB))).
    { apply (mb_div 32 23); [lia|apply mb_int; [lia|]|apply mb_dec_scale|exact SD]. change (P_Node.signed32 (field 16 4 data)) with (as_signed (field 16 4 data)). lia. }
    split; unfold u, u', t', getCorrected, calibrate; cbn [ra dec position offset].
    - cbn [fadd fsub NumSF NumB]. apply (mb_add 11); [lia|eapply mb_weaken; [|exact P1]; lia|]. apply (mb_sub 10); [lia|eapply mb_weaken; [|exact Q1]; lia|exact P1].
    - cbn [fadd fsub NumSF NumB]. apply (mb_add 11); [lia|eapply mb_weaken; [|exact P2]; lia|]. apply (mb_sub 10); [lia|eapply mb_weaken; [|exact Q2]; lia|exact P2]. }
  rewrite (pack_agrees now _ _ S). destruct (packCurrentPosition NumB now (getCorrected NumB u')) as [m|]; cbn [jbind] in E |- *; [|discriminate]. injection E as -> _. reflexivity.
Qed.
Lemma other_doubles now cl (t : ntele NumSF) data : ~ is_goto data -> on_data NumSF now cl t data = Ret (match node_nexstar cl data with [] => None | reply => Some reply end, t).
Proof.
  intros Hn. unfold on_data. destruct (node_nexstar cl data) as [|c l] eqn:E; [|reflexivity].
  destruct (Z.leb_spec 20 (Z.of_nat (length data))) as [L|L]; [|reflexivity]. exfalso. apply Hn. split; [lia|]. unfold not_sync. intros Hs.
  destruct data as [|a data]; [cbn in L; lia|]. cbn [hd] in Hs. subst a. destruct data as [|b data]; [cbn in L; lia|].
  revert E. unfold node_nexstar. destruct data; [cbn in L; lia|]. destruct (is_device _); discriminate.
Qed.
Lemma goto_dec data : is_goto data \/ ~ is_goto data.
Proof. unfold is_goto, not_sync. destruct (le_dec 20 (length data)); [|right; tauto]. destruct (Z.eq_dec (hd 0%Z data) 115); [right; tauto|left; tauto]. Qed.
Lemma run_connection T (H D : R) msgs : forall t : ntele NumSF, is_double (ra (position NumSF t)) H -> is_double (dec (position NumSF t)) D -> Rabs H <= 512 -> Rabs D <= 512 ->
  Forall (fun '(now, cl, data) => bytes_ok data /\ (is_goto data -> ~ extreme data)) msgs ->
  exists answers, connection T t msgs = Ret answers /\ Forall2 answered msgs answers.
Proof.
  induction msgs as [|[[now cl] data] msgs IH]; intros t MH MD BH BD HF; cbn [connection].
  - exists []. split; [reflexivity|constructor].
  - inversion HF as [|? ? Hx HF']; subst. cbn beta iota in Hx. destruct Hx as [Hb He]. destruct (goto_dec data) as [G|G].
    + destruct (goto_doubles now cl t H D data MH MD BH BD Hb G (He G)) as (r & d & t' & E & Ep & K1 & K2). rewrite E. cbn [jbind].
      destruct (IH t') as (answers & Ea & Fa); [rewrite Ep; exact MH|rewrite Ep; exact MD|exact BH|exact BD|exact HF'|]. rewrite Ea. cbn [jbind].
      exists (Some (current_position (now * 1000) r d) :: answers). split; [reflexivity|]. constructor; [|exact Fa]. split; [|tauto]. intros _. exists r, d. auto.
    + rewrite (other_doubles now cl t data G). cbn [jbind]. destruct (IH t MH MD BH BD HF') as (answers & Ea & Fa). rewrite Ea. cbn [jbind].
      eexists. split; [reflexivity|]. constructor; [|exact Fa]. split; [tauto|reflexivity].
Qed.
(** From a new connection on every goto, in any history of messages, is answered with its own words; no exception. *)
Theorem C171_every_goto_answered : forall T, c_libm T -> forall msgs,
  Forall (fun '(now, cl, data) => bytes_ok data /\ (is_goto data -> ~ extreme data)) msgs ->
  exists answers, connection T (new_connection NumSF T) msgs = Ret answers /\ Forall2 answered msgs answers.
Proof.
  intros T HT msgs HF.
  assert (I : forall z d, (Z.abs z <= 2 ^ 53)%Z -> (Zpos d <= 2 ^ 53)%Z -> Rabs (IZR z) <= IZR (Zpos d) * bpow radix2 10 -> exists x, is_double (fq NumSF z d) x /\ Rabs x <= 4000).
  { intros z d B1 B2 B3. destruct (mb_fq 10 z d B1 B2 ltac:(lia) B3) as [M B]. eexists. split; [apply double_means; exact M|]. simpl bpow in B. change (F NumB) with R in *. lra. }
  assert (J : is_double (fZ NumSF 48) 48).
  { apply double_means. replace 48 with (IZR 48) by reflexivity. rewrite <- (fZB 48) by lia. apply meansZ. lia. }
  destruct (I 13554%Z 100%positive ltac:(lia) ltac:(lia)) as (A & MA & BA); [rewrite Rabs_pos_eq by lra; simpl bpow; lra|].
  destruct (I 5271%Z 100%positive ltac:(lia) ltac:(lia)) as (E & ME & BE); [rewrite Rabs_pos_eq by lra; simpl bpow; lra|].
  assert (ML : exists L, is_double (fq NumSF 32166 1000) L /\ 0 <= L < 360).
  { assert (B3 : Rabs (IZR 32166) <= IZR (Zpos 1000) * bpow radix2 10) by (rewrite Rabs_pos_eq by lra; simpl bpow; lra).
    destruct (mb_fq 10 32166 1000 ltac:(lia) ltac:(lia) ltac:(lia) B3) as [M _].
    eexists. split; [apply double_means; exact M|]. cbn [fq NumB]. step 6%Z (32166 / 1000) K. lra. }
  destruct ML as (L & ML & BL).
  unfold new_connection. set (t0 := NTele NumSF (Equ (fZ NumSF 0) (fZ NumSF 0)) (Equ (fZ NumSF 0) (fZ NumSF 0))).
  destruct (C170_position_is_seen_in_the_direction T HT t0 _ _ _ _ A E 48 L MA ME J ML BA BE) as (H & D & EH & ED & _ & B1 & B2); [rewrite Rabs_pos_eq; lra|rewrite Rabs_pos_eq; lra|].
  specialize (B1 BL). simpl bpow in B2.
  apply (run_connection T H D); [exact EH|exact ED|rewrite Rabs_pos_eq; lra|lra|exact HF].
Qed.
Print Assumptions C171_every_goto_answered.
Example C171_nonvacuous : exists now cl, Forall (fun m : Z * clock * list Z => let '(_, _, data) := m in bytes_ok data /\ (is_goto data -> ~ extreme data))
    [(now, cl, [86]); (now, cl, goto_message 1700000000000000 2147483648 (2 ^ 32 - 1000)); (now, cl, [101])]%Z /\
  is_goto (goto_message 1700000000000000 2147483648 (2 ^ 32 - 1000)) /\ ~ is_goto [86]%Z.
Proof.
  exists 1700000000000%Z, (Clock 12 30 0 11 18 2026).
  assert (B : forall l, Forall (fun b => (0 <= b < 256)%Z) l -> bytes_ok l) by (intros l H; exact H).
  assert (G : goto_message 1700000000000000 2147483648 (2 ^ 32 - 1000) = [20; 0; 0; 0; 0; 64; 30; 24; 36; 10; 6; 0; 0; 0; 0; 128; 24; 252; 255; 255]%Z) by (vm_compute; reflexivity).
  rewrite G. split; [|split].
  - apply Forall_cons; [|apply Forall_cons; [|apply Forall_cons; [|apply Forall_nil]]]; (split; [unfold bytes_ok, is_byte; repeat apply Forall_cons; try apply Forall_nil; lia|]).
    + intros [L _]. cbn in L. lia.
    + intros _ [K|[K|K]]; vm_compute in K; discriminate.
    + intros [L _]. cbn in L. lia.
  - split; [cbn; lia|unfold not_sync; cbn; lia].
  - intros [L _]. cbn in L. lia.
Qed.
