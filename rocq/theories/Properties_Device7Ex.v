(** Non-vacuity of C135/C136: a device just switched on, three syncs over Bluetooth at three orientations. *)
From Verif Require Import Base Num M_Libc P_Libc M_Checkbits M_Linalg M_Helper M_Alignment S_Alignment P_Alignment P_AlignState P_AlignState2 P_AlignR M_Telescope S_Sky P_Sky M_Stellarium S_Stellarium P_Stellarium P_Stellarium2 M_Gnss M_NexStar S_NexStar P_NexStar M_Led M_Imu P_Imu M_Main P_Sched P_Main P_Main2 P_Device S_Device P_Device2 P_Device3 S_Safe Properties_Alignment Properties_Sky Properties_NexStar Properties_NexStar2 Properties_Stellarium Properties_Main3 Properties_Device3 Properties_Device4 S_Delaunay P_DelaunayEx Properties_Delaunay P_AlignWitness Properties_Device7.
From Coq Require Import Permutation Reals Lra Sorted.
From Flocq Require Import Core.
Open Scope R_scope.
Notation length := List.length.

Section Example.
Context (pf : platform) (oor : conv_policy) (lc : libc NumR) (qsort : list (vpair NumR) -> list (vpair NumR)) (x : F NumR) (j : F NumR * F NumR).
Context (ftext : nat -> F NumR -> list Z) (left_first : bool) (cfg : config).
Notation step := (M_Main.step NumR TrigR pf oor lc qsort (Ok x) (Some j) ftext left_first cfg).
Notation history := (history NumR TrigR pf oor lc qsort (Ok x) (Some j) ftext left_first cfg).
Notation boot := (boot NumR).
Notation commands := (commands NumR TrigR pf oor lc qsort (Ok x) (Some j) ftext left_first cfg).
Notation run := (run NumR qsort (Ok x) (Some j)).

(** nothing from outside but the encoder: 0xC000 is position 0 with its check bits,
    in the order in which the compiler reads the two bytes *)
Definition turn_env (now : Z) : env NumR := Env NumR now (0, 0, 0) (if left_first then (192, 0) else (0, 192))%Z false false false None [] [] [] false 0.
Definition move (now : Z) : list (event NumR) := [Pass (turn_env now); Pass (turn_env (now + 1)); Pass (turn_env (now + 2))].
Definition three_syncs : list (event NumR) :=
  Bluetooth a_sync :: move 100001 ++ Bluetooth a_sync :: move 200005 ++ [Bluetooth a_sync].

Definition zeros150 : list R := repeat 0 150.
Record still (d : dev NumR) (k : timers) (h : R) (o : point NumR) (n c : Z) : Prop := {
  st_timers : d_timers d = k; st_heading : (d_heading d : R) = h; st_orient : t_orient (d_tel d) = o;
  st_imu : i_samples (d_imu d) = zeros150; st_counter : (0 <= i_counter (d_imu d) <= c)%Z;
  st_client : d_client d = None; st_gnss : d_gnss d = d_gnss boot; st_tx : length (d_tx d) = 256%nat;
  st_wf : WF NumR (t_align (d_tel d)); st_n : (numVertices (t_align (d_tel d)) <= n)%Z }.

Lemma still_sync d k h o n c : permuting NumR qsort -> still d k h o n c -> (n <= 2)%Z ->
  exists d' out, step d (Bluetooth a_sync) = Ok (d', out) /\ still d' k h o (n + 1) c.
Proof.
  intros Hq [K1 K2 K3 K4 K5 K6 K7 K8 K9 K10] Hn. destruct zeros_spell as [Hw Hz].
  pose proof (C12_sync_fields NumR TrigR pf oor qsort (Ok x) (Some j) (d_tel d) (d_gnss d) 0 0 eight_zeros eight_zeros 44 [] [] (d_tx d) 256 Hw Hw Hz Hz ltac:(lia) ltac:(rewrite K8; lia)) as H.
  cbv zeta in H. fold a_sync in H. rewrite app_nil_r in H.
  match type of H with _ = (do _ <- addReferencePoint _ _ qsort _ _ ?t ?a ?b ?c ?l; _) =>
    destruct (add_point NumR TrigR qsort x j t a b c l Hq K9 ltac:(lia)) as (t' & Et & W' & Eo & _ & Nt) end.
  rewrite Et in H. cbn [bind] in H. eexists _, _. split.
  { cbn [M_Main.step]. unfold onBluetoothData. rewrite H. cbn [bind]. change (0 <? 1)%Z with true. cbv iota zeta. reflexivity. }
  constructor; cbn [set_nexstar set_tel set_tx d_timers d_heading d_tel d_imu d_client d_gnss d_tx t_orient t_align]; try assumption.
  - rewrite Eo. exact K3.
  - unfold written. cbn [app length]. rewrite skipn_length, K8. reflexivity.
  - destruct (existsb _ _) in Nt; lia.
Qed.
Lemma mean0 k : (0 <= k < 3)%Z -> mean_component NumR zeros150 50 k = Ok 0.
Proof.
  intros Hk. unfold mean_component. assert (G : forall n i, (0 <= i)%Z -> (i + Z.of_nat n <= 50)%Z -> sum_from NumR zeros150 k i n 0 = Ok 0).
  { induction n as [|n IH]; intros i H1 H2; cbn [sum_from]; [reflexivity|].
    assert (HR : rd zeros150 (Z.to_nat (3 * i + k)) = Ok 0).
    { unfold rd. destruct (nth_error zeros150 (Z.to_nat (3 * i + k))) as [v|] eqn:E; [|apply nth_error_None in E; unfold zeros150 in E; rewrite repeat_length in E; lia].
      apply nth_error_In in E. apply repeat_spec in E. subst v. reflexivity. }
    match goal with |- (do _ <- ?r; _) = _ => replace r with (Ok 0 : res R) by (symmetry; exact HR) end. cbn [bind f32 fadd NumR]. change (F NumR) with R. rewrite Rplus_0_l. apply IH; lia. }
  change (fZ NumR 0) with 0. rewrite (G (Z.to_nat 50) 0%Z) by lia. cbn [bind f32 fdiv fZ NumR]. f_equal. unfold Rdiv. ring.
Qed.
Lemma pitch180 (d : dev NumR) : i_samples (d_imu d) = zeros150 -> measure_pitch NumR TrigR d = Ok (180 : R).
Proof.
  intros E. unfold measure_pitch, getMeanAcc. rewrite E. unfold ACC_FILTER_SAMPLES. rewrite !mean0 by lia. cbn [bind].
  unfold calibrate_acc. cbn [f32 fsub fq fdiv fmul fZ NumR tatan2 tpi TrigR]. change (F NumR) with R.
  match goal with |- context [atan2R ?a ?b] => set (yy := a); set (xx := b) end.
  assert (Ex : xx < 0) by (unfold xx; lra). assert (Ey : yy = 0) by (unfold yy; lra). 
  assert (E2 : atan2R yy xx = PI).
  { unfold atan2R. pose proof PI_RGT_0 as P. destruct (Rlt_dec 0 xx) as [H|H]; [exfalso; lra|]. destruct (Rlt_dec xx 0) as [H'|H']; [|exfalso; lra].
    destruct (Rle_dec 0 yy) as [H0|H0]; [|exfalso; lra]. rewrite Ey. unfold Rdiv. rewrite Rmult_0_l, atan_0. ring. }
  rewrite E2. f_equal. field. apply PI_neq0.
Qed.
Lemma still_filter d k k' h o n c now : still d k h o n c -> (c < 49)%Z -> select k now = (Filter, k') ->
  exists d' out, step d (Pass (turn_env now)) = Ok (d', out) /\ still d' k' h o n (c + 1) /\ the_task NumR d (turn_env now) = Filter.
Proof.
  intros [K1 K2 K3 K4 K5 K6 K7 K8 K9 K10] Hc Es. cbn [M_Main.step]. unfold loop, the_task. cbn [turn_env e_now]. rewrite K1, Es. cbn [run_task]. unfold task_filter.
  destruct (c_sensor cfg).
  - cbn [turn_env e_acc]. change (d_imu (set_timers NumR d k')) with (d_imu d). unfold accSample. rewrite K4.
    assert (W : forall i, (i < 150)%nat -> wr zeros150 i 0 = Ok zeros150).
    { assert (G : forall m i, (i < m)%nat -> wr (repeat 0 m) i 0 = Ok (repeat 0 m)).
      { induction m as [|m IH]; intros [|i] Hi; try lia; [reflexivity|]. specialize (IH i ltac:(lia)). unfold wr in *. cbn [repeat upd].
        destruct (upd (repeat 0 m) i 0); [injection IH as ->; reflexivity|discriminate]. }
      intros i Hi. apply (G 150%nat i Hi). }
    rewrite W by lia. cbn [bind]. rewrite W by lia. cbn [bind]. rewrite W by lia. cbn [bind].
    eexists _, _. split; [reflexivity|]. split; [|reflexivity]. constructor; try assumption; try reflexivity.
    cbn [set_imu set_timers d_imu i_counter]. unfold ACC_FILTER_SAMPLES. rewrite Z.rem_small by lia. lia.
  - eexists _, _. split; [reflexivity|]. split; [|reflexivity]. constructor; try assumption; try reflexivity.
    change (d_imu (set_timers NumR d k')) with (d_imu d). lia.
Qed.
Lemma still_25 d k k' h o n c now : still d k h o n c -> select k now = (Task25ms, k') ->
  exists d' out, step d (Pass (turn_env now)) = Ok (d', out) /\ still d' k' h o n c /\ the_task NumR d (turn_env now) = Task25ms.
Proof.
  intros [K1 K2 K3 K4 K5 K6 K7 K8 K9 K10] Es. cbn [M_Main.step]. unfold loop, the_task. cbn [turn_env e_now]. rewrite K1, Es. cbn [run_task]. unfold task_25ms.
  eexists _, _. split; [reflexivity|]. split; [|reflexivity]. constructor; try assumption; try reflexivity.
Qed.
Lemma raw0 now : heading_raw NumR left_first (turn_env now) = 49152%Z.
Proof. unfold heading_raw, turn_env. cbn [e_spi]. destruct left_first; reflexivity. Qed.
Lemma still_100 d k k' h o n c now : still d k h o n c -> select k now = (Task100ms, k') ->
  exists d' out, step d (Pass (turn_env now)) = Ok (d', out) /\ still d' k' (h * (7 / 10)) (@Pt NumR (h * (7 / 10)) 180) n c /\ the_task NumR d (turn_env now) = Task100ms.
Proof.
  intros [K1 K2 K3 K4 K5 K6 K7 K8 K9 K10] Es. cbn [M_Main.step]. unfold loop, the_task. cbn [turn_env e_now]. rewrite K1, Es. cbn [run_task fst]. unfold task_100ms.
  rewrite pitch180 by exact K4. cbn [bind].
  change (e_up_read (turn_env now)) with false. rewrite andb_false_r. cbn [bind].
  change (e_msgs (turn_env now)) with (@nil (String.string * list Z)). cbn [mqtt_loop].
  assert (Ec : forall d0, checkForConnections NumR d0 (turn_env now) = (d0, [])) by reflexivity.
  set (hd := filter_heading NumR (d_heading (set_timers NumR d k')) (heading_raw NumR left_first (turn_env now))).
  assert (Eh : (hd : R) = h * (7 / 10)).
  { unfold hd. rewrite raw0. change (d_heading (set_timers NumR d k')) with (d_heading d). rewrite K2. unfold filter_heading.
    replace (verifyAmtCheckbits 49152) with true by (symmetry; vm_compute; reflexivity). change (Z.land 49152 16383) with 0%Z. unfold HEADING_LOWPASS. cbn [f32 fadd fmul fdiv fsub fq fZ NumR]. change (F NumR) with R. field. }
  clearbody hd.
  set (d1 := set_tel NumR (set_attitude NumR (set_timers NumR d k') hd 180) _).
  assert (M : (if c_mqtt cfg then Ok (d1, []) else Ok (d1, [])) = Ok (d1, @nil out)) by (destruct (c_mqtt cfg); reflexivity).
  rewrite M. cbn [bind].
  assert (C : (if c_wifi cfg then checkForConnections NumR (set_led NumR d1 (led_for NumR d1 (turn_env now))) (turn_env now) else (set_led NumR d1 (led_for NumR d1 (turn_env now)), [])) = (set_led NumR d1 (led_for NumR d1 (turn_env now)), [])) by (rewrite Ec; destruct (c_wifi cfg); reflexivity).
  rewrite C. eexists _, _. split; [reflexivity|]. split; [|reflexivity].
  constructor; try assumption; try reflexivity.
  change (t_orient (d_tel (set_led NumR d1 (led_for NumR d1 (turn_env now))))) with (@Pt NumR (hd + 0) 180). rewrite Rplus_0_r, Eh. reflexivity.
Qed.

(** the commands of one event *)
Lemma commands_cons d ev d' o evs cs : step d ev = Ok (d', o) -> commands d (ev :: evs) cs -> exists c cs', cs = c ++ cs' /\ commands_of NumR cfg d ev d' c /\ commands d' evs cs'.
Proof. intros E H. inversion H as [|? ? d0 o0 ? c cs' Es Hco Hcs]; subst. rewrite E in Es. apply Ok2 in Es. destruct Es as [<- _]. exists c, cs'. auto. Qed.
Lemma command_sync d d' c : commands_of NumR cfg d (Bluetooth a_sync) d' c -> d_gnss d = d_gnss boot -> exists r dc, 0 <= dc < 90 /\ c = [Sync (t_orient (d_tel d)) r dc (d_gnss boot)].
Proof.
  intros [(_ & r & dc & Hsay & ->)|(Hn & _)] Eg; [|contradiction Hn; apply a_sync_is]. destruct zeros_spell as [Hw Hz].
  destruct (Hsay 0%Z 0%Z eight_zeros eight_zeros 44%Z [] Hw Hw Hz Hz eq_refl) as [Hr Hd]. exists r, dc. rewrite Eg. split; [|reflexivity].
  assert (Ed : dc = 0).
  { rewrite Hd. cbn [fdiv fmul fZ fsub flt NumR]. replace (0 * 360 / 4294967296)%R with 0%R by (change (F NumR) with R; lra). rewrite Rlt_bool_false by (change (F NumR) with R; lra). reflexivity. }
  rewrite Ed. lra.
Qed.
Lemma command_pass d d' c now t : commands_of NumR cfg d (Pass (turn_env now)) d' c -> the_task NumR d (turn_env now) = t -> c = [].
Proof.
  intros H <-. unfold commands_of in H. destruct (the_task NumR d (turn_env now)); try exact H. destruct H as (s & -> & H).
  change (e_up_read (turn_env now)) with false in H. rewrite andb_false_r in H. cbn [andb] in H. rewrite H. unfold resets. cbn [turn_env e_msgs existsb]. rewrite andb_false_r. reflexivity.
Qed.

(** turning: three passes *)
Lemma still_move d k k1 k2 k3 h o n c t : still d k h o n c -> (c < 49)%Z ->
  select k t = (Filter, k1) -> select k1 (t + 1) = (Task25ms, k2) -> select k2 (t + 2) = (Task100ms, k3) ->
  exists d' o', history d (move t) = Ok (d', o') /\ still d' k3 (h * (7 / 10)) (@Pt NumR (h * (7 / 10)) 180) n (c + 1) /\
    forall evs cs, commands d (move t ++ evs) cs -> commands d' evs cs.
Proof.
  intros S Hc E1 E2 E3. destruct (still_filter d k k1 h o n c t S Hc E1) as (d1 & o1 & P1 & S1 & T1).
  destruct (still_25 d1 k1 k2 h o n (c + 1) (t + 1) S1 E2) as (d2 & o2 & P2 & S2 & T2).
  destruct (still_100 d2 k2 k3 h o n (c + 1) (t + 2) S2 E3) as (d3 & o3 & P3 & S3 & T3).
  exists d3. eexists. split; [cbn [move M_Main.history]; rewrite P1; cbn [bind]; rewrite P2; cbn [bind]; rewrite P3; reflexivity|].
  split; [exact S3|]. intros evs cs H. unfold move in H. cbn [app] in H.
  apply (commands_cons _ _ _ _ _ _ P1) in H. destruct H as (c1 & cs1 & -> & C1 & H). apply (command_pass _ _ _ _ _ C1) in T1. subst c1. cbn [app].
  apply (commands_cons _ _ _ _ _ _ P2) in H. destruct H as (c2 & cs2 & -> & C2 & H). apply (command_pass _ _ _ _ _ C2) in T2. subst c2. cbn [app].
  apply (commands_cons _ _ _ _ _ _ P3) in H. destruct H as (c3 & cs3 & -> & C3 & H). apply (command_pass _ _ _ _ _ C3) in T3. subst c3. exact H.
Qed.
Lemma history_app d evs evs' d' o d'' o' : history d evs = Ok (d', o) -> history d' evs' = Ok (d'', o') -> history d (evs ++ evs') = Ok (d'', o ++ o').
Proof.
  revert d o. induction evs as [|e evs IH]; intros d o H H'; cbn [M_Main.history app] in *.
  - apply Ok2 in H. destruct H as [-> <-]. exact H'.
  - destruct (step d e) as [[d1 o1]|]; cbn [bind] in *; [|discriminate]. destruct (history d1 evs) as [[d2 o2]|] eqn:E; cbn [bind] in *; [|discriminate].
    apply Ok2 in H. destruct H as [-> <-]. rewrite (IH _ _ E H'). cbn [bind]. rewrite app_assoc. reflexivity.
Qed.
Lemma still_boot : still boot (Timers 0 0 0 0 0 0 0) 180 (@Pt NumR 0 0) 0 0.
Proof. constructor; try reflexivity; first [apply WF_init|cbn; lia]. Qed.

Definition q1 : point NumR := @Pt NumR 0 0.
Definition q2 : point NumR := @Pt NumR (180 * (7 / 10)) 180.
Definition q3 : point NumR := @Pt NumR (180 * (7 / 10) * (7 / 10)) 180.
Lemma three_history : permuting NumR qsort -> exists d o, history boot three_syncs = Ok (d, o) /\ t_orient (d_tel d) = q3 /\ d_gnss d = d_gnss boot /\
  forall cs, commands boot three_syncs cs -> exists r1 s1 r2 s2 r3 s3, 0 <= s3 < 90 /\
    cs = [Sync q1 r1 s1 (d_gnss boot); Sync q2 r2 s2 (d_gnss boot); Sync q3 r3 s3 (d_gnss boot)].
Proof.
  intros Hq. destruct (still_sync _ _ _ _ _ _ Hq still_boot ltac:(lia)) as (d1 & o1 & P1 & S1).
  destruct (still_move _ _ (Timers 100001 0 0 0 0 0 0) (Timers 100001 100002 0 0 0 0 0) (Timers 100001 100002 100003 0 0 0 0) _ _ _ _ 100001 S1 ltac:(lia) eq_refl eq_refl eq_refl) as (d2 & o2 & P2 & S2 & C2).
  destruct (still_sync _ _ _ _ _ _ Hq S2 ltac:(lia)) as (d3 & o3 & P3 & S3).
  destruct (still_move _ _ (Timers 200005 100002 100003 0 0 0 0) (Timers 200005 200006 100003 0 0 0 0) (Timers 200005 200006 200007 0 0 0 0) _ _ _ _ 200005 S3 ltac:(lia) eq_refl eq_refl eq_refl) as (d4 & o4 & P4 & S4 & C4).
  destruct (still_sync _ _ _ _ _ _ Hq S4 ltac:(lia)) as (d5 & o5 & P5 & S5).
  exists d5. eexists. split; [|split; [exact (st_orient _ _ _ _ _ _ S5)|split; [exact (st_gnss _ _ _ _ _ _ S5)|]]].
  - unfold three_syncs. cbn [M_Main.history]. rewrite P1. cbn [bind].
    assert (H5 : history d4 [Bluetooth a_sync] = Ok (d5, o5 ++ [])) by (cbn [M_Main.history]; rewrite P5; reflexivity).
    pose proof (history_app _ _ _ _ _ _ _ P4 H5) as H4.
    assert (H3 : history d2 (Bluetooth a_sync :: move 200005 ++ [Bluetooth a_sync]) = Ok (d5, o3 ++ (o4 ++ o5 ++ []))) by (cbn [M_Main.history]; rewrite P3; cbn [bind]; rewrite H4; reflexivity).
    rewrite (history_app _ _ _ _ _ _ _ P2 H3). reflexivity.
  - intros cs H. unfold three_syncs in H.
    apply (commands_cons _ _ _ _ _ _ P1) in H. destruct H as (c1 & cs1 & -> & K1 & H). apply command_sync in K1; [|reflexivity]. destruct K1 as (r1 & s1 & _ & ->).
    apply C2 in H. apply (commands_cons _ _ _ _ _ _ P3) in H. destruct H as (c2 & cs2 & -> & K2 & H). apply command_sync in K2; [|exact (st_gnss _ _ _ _ _ _ S2)]. destruct K2 as (r2 & s2 & _ & ->).
    apply C4 in H. apply (commands_cons _ _ _ _ _ _ P5) in H. destruct H as (c3 & cs3 & -> & K3 & H). apply command_sync in K3; [|exact (st_gnss _ _ _ _ _ _ S4)]. destruct K3 as (r3 & s3 & B & ->).
    inversion H; subst. exists r1, s1, r2, s2, r3, s3. split; [exact B|]. cbn [app].
    rewrite (st_orient _ _ _ _ _ _ S2), (st_orient _ _ _ _ _ _ S4). reflexivity.
Qed.

Definition ex3 : list (Z * Z) := [(0, 0); (8820, 18000); (12600, 18000)]%Z.
Definition ex3_frame : list (Z * Z) := [(-353700, -9000); (6300, 369000); (366300, -9000)]%Z.
Lemma q1_toR : q1 = toR (0, 0)%Z. Proof. unfold q1, toR. cbn [fst snd]. f_equal; change (F NumR) with R; lra. Qed.
Lemma q2_toR : q2 = toR (12600, 18000)%Z. Proof. unfold q2, toR. cbn [fst snd]. f_equal; change (F NumR) with R; lra. Qed.
Lemma q3_toR : q3 = toR (8820, 18000)%Z. Proof. unfold q3, toR. cbn [fst snd]. f_equal; change (F NumR) with R; lra. Qed.
Lemma in_order (l : list (vpair NumR)) : StronglySorted (by_azimuth NumR) l -> Permutation (map actual l) [q1; q2; q3] -> map actual l = ptsR ex3.
Proof.
  intros S P. pose proof (Permutation_length P) as L. rewrite map_length in L. destruct l as [|u [|v [|w [|]]]]; try discriminate L. clear L. cbn [map] in *.
  assert (O : px (actual u) <= px (actual v) /\ px (actual v) <= px (actual w)).
  { inversion S as [|? ? S1 F1]; subst. inversion S1 as [|? ? S2 F2]; subst. inversion F1; subst. inversion F2; subst. unfold by_azimuth in *. cbn [flt NumR] in *.
    split; apply Rnot_lt_le; intros C; apply Rlt_bool_true in C; congruence. }
  generalize dependent (actual u). generalize dependent (actual v). generalize dependent (actual w). clear u v w S. intros w v u P [O1 O2].
  unfold ex3, ptsR. cbn [map]. rewrite <- q1_toR, <- q2_toR, <- q3_toR.
  pose proof (Permutation_in u P (or_introl eq_refl)) as I1. destruct I1 as [<-|[<-|[<-|[]]]].
  - apply Permutation_cons_inv in P. destruct (Permutation_length_2_inv (Permutation_sym P)) as [E|E]; injection E as -> ->; [exfalso; unfold q1, q2, q3 in *; cbn [px] in *; change (F NumR) with R in *; lra|reflexivity].
  - exfalso. pose proof (Permutation_in q1 (Permutation_sym P) (or_introl eq_refl)) as I2. destruct I2 as [I2|[ -> |[ -> |[]]]]; [apply (f_equal px) in I2|..]; unfold q1, q2, q3 in *; cbn [px] in *; change (F NumR) with R in *; lra.
  - exfalso. pose proof (Permutation_in q1 (Permutation_sym P) (or_introl eq_refl)) as I2. destruct I2 as [I2|[ -> |[ -> |[]]]]; [apply (f_equal px) in I2|..]; unfold q1, q2, q3 in *; cbn [px] in *; change (F NumR) with R in *; lra.
Qed.
Lemma ex3_gp : frame (ptsR ex3) (toR (-353700, -9000)%Z) (toR (6300, 369000)%Z) (toR (366300, -9000)%Z) /\ in_general_position (ptsR (ex3 ++ ex3_frame)) /\ empty_circle (ptsR (ex3 ++ ex3_frame)) 0 1 2.
Proof.
  split; [|split].
  - apply (frame_of_box _ _ _ _ 0 126 0 180)%R.
    + split; [|split; [|split; [|split]]].
      * intros p Hp. unfold ptsR, ex3 in Hp. cbn [map In] in Hp. unfold xof, yof.
        repeat (destruct Hp as [ <- |Hp]; [unfold toR; cbn [fst snd px py]; lra|]). contradiction.
      * exists (toR (0, 0)%Z). split; [left; reflexivity|unfold toR, xof; cbn [fst snd px py]; lra].
      * exists (toR (12600, 18000)%Z). split; [cbn; auto 10|unfold toR, xof; cbn [fst snd px py]; lra].
      * exists (toR (0, 0)%Z). split; [left; reflexivity|unfold toR, yof; cbn [fst snd px py]; lra].
      * exists (toR (12600, 18000)%Z). split; [cbn; auto 10|unfold toR, yof; cbn [fst snd px py]; lra].
    + cbv zeta. replace (Rmax (126 - 0) (180 - 0))%R with 180%R by (rewrite Rmax_right; lra).
      unfold toR. cbn [fst snd]. split; [|split]; f_equal; change (F NumR) with R; lra.
  - apply check_gp; vm_compute; reflexivity.
  - apply (check_empty_spec (ex3 ++ ex3_frame) 0 1 2); [cbn; lia|cbn; lia|cbn; lia|vm_compute; reflexivity].
Qed.

Lemma norm_exists v : exists s, 0 <= s < 360 /\ same_turn s v.
Proof.
  exists (v - 360 * IZR (Zfloor (v / 360))). pose proof (Zfloor_lb (v / 360)). pose proof (Zfloor_ub (v / 360)). split; [lra|].
  exists (- Zfloor (v / 360))%Z. rewrite opp_IZR. lra.
Qed.
(** three stars: the hypotheses of C136 *)
Example C136_nonvacuous : sorting NumR qsort ->
  exists d o, history boot three_syncs = Ok (d, o) /\
  forall cs, commands boot three_syncs cs -> at_most 63 cs /\ exists p r dc g s, first_named cs p r dc g /\
    three_stars cs (t_align (d_tel d)) /\ corner_only (t_align (d_tel d)) p /\ -90 < dc < 90 /\ 0 <= dc /\ latitude (d_gnss d) = latitude g /\
    0 <= s < 360 /\ same_turn s (r + (sidereal (d_gnss d) - sidereal g)) /\ t_orient (d_tel d) = p.
Proof.
  intros Hs. pose proof (proj1 Hs) as Hq. destruct (three_history Hq) as (d & o & H & Ho & Hg & Hc). exists d, o. split; [exact H|]. intros cs C0.
  destruct (C105_alignment_follows_commands NumR TrigR pf oor lc qsort x j ftext left_first cfg _ d o H) as (cs' & C1 & Hr).
  assert (Q : forall cs, commands boot three_syncs cs -> at_most 63 cs /\ first_named cs q3 (match nth_error cs 2 with Some (Sync _ r _ _) => r | _ => 0 end) (match nth_error cs 2 with Some (Sync _ _ r _) => r | _ => 0 end) (d_gnss boot) /\ synchronised cs [] = [q1; q2; q3] /\ 0 <= (match nth_error cs 2 with Some (Sync _ _ r _) => r | _ => 0 end) < 90).
  { clear - Hc. intros cs C. destruct (Hc cs C) as (r1 & s1 & r2 & s2 & r3 & s3 & B & ->).
    assert (D : forall a b : point NumR, px a <> px b -> same NumR a b = false).
    { intros a b N. unfold same. cbn [feq NumR]. rewrite Req_bool_false by exact N. reflexivity. }
    assert (N12 : px q1 <> px q2) by (unfold q1, q2; cbn [px]; change (F NumR) with R; lra).
    assert (N13 : px q1 <> px q3) by (unfold q1, q3; cbn [px]; change (F NumR) with R; lra).
    assert (N23 : px q2 <> px q3) by (unfold q2, q3; cbn [px]; change (F NumR) with R; lra).
    cbn [nth_error]. split; [|split; [|split; [|exact B]]].
    - intros [|[|[|k]]]; cbn [firstn synchronised existsb app orb]; rewrite ?firstn_nil; cbn [synchronised]; rewrite ?(D _ _ N12), ?(D _ _ N13), ?(D _ _ N23); cbn [orb app existsb]; rewrite ?(D _ _ N12), ?(D _ _ N13), ?(D _ _ N23); cbn [orb app length]; lia.
    - exists [Sync q1 r1 s1 (d_gnss boot); Sync q2 r2 s2 (d_gnss boot)], []. split; [reflexivity|]. split; [intros []|].
      cbn [synchronised existsb app orb]. rewrite (D _ _ N12). cbn [orb app existsb]. rewrite (D _ _ N13), (D _ _ N23). reflexivity.
    - cbn [synchronised existsb app orb]. rewrite (D _ _ N12). cbn [orb app existsb]. rewrite (D _ _ N13), (D _ _ N23). reflexivity. }
  destruct (Q cs' C1) as (Hm' & Hf' & Hy' & _).
  destruct (named_star qsort x j cs' _ _ _ _ _ Hq Hm' Hr Hf') as (v & ops & Hv & _ & Eo & Em & Hp & _).
  assert (Hp0 := Hp). rewrite Hy' in Hp.
  assert (HW : WF NumR (t_align (d_tel d))) by (eapply run_WF; [exact Hq|apply WF_init|exact Hr]).
  assert (Hst : map actual (stored (t_align (d_tel d))) = ptsR ex3).
  { apply in_order; [|exact Hp]. eapply history_sorted; [exact Hs|apply weak_order_R|apply WF_init|constructor|exact Hr]. }
  rewrite Eo in Hr.
  assert (Hne : tris (t_align (d_tel d)) <> []).
  { pose proof Hr as Hr'. rewrite run_app in Hr'. destruct (S_Alignment.run NumR qsort (Ok x) (Some j) (align_init NumR) ops) as [a0|] eqn:E0; cbn [bind] in Hr'; [|discriminate].
    cbn [S_Alignment.run S_Alignment.step] in Hr'.
    destruct (TriangulateActual NumR (Ok x) (Some j) a0) as [a1|] eqn:Et; cbn [bind] in Hr'; [|discriminate]. injection Hr' as E1.
    destruct ex3_gp as (Fr & Gp & Ec).
    assert (Sa : stored a0 = stored (t_align (d_tel d))) by (rewrite <- E1; destruct (triangulate_actual NumR x j a0 ltac:(eapply run_WF; [exact Hq|apply WF_init|exact E0])) as [(a2 & E2 & _ & _ & Es & _)|(_ & _ & E2)]; [rewrite Et in E2; injection E2 as <-; symmetry; exact Es|rewrite Et in E2; discriminate]).
    destruct (C38_object_delaunay qsort x j ops a0 (toR (-353700, -9000)%Z) (toR (6300, 369000)%Z) (toR (366300, -9000)%Z) Hs E0) as (a' & E' & _ & (_ & D2 & _)); [rewrite Sa; intros E; rewrite E in Hv; exact Hv|rewrite Sa, Hst; exact Fr|rewrite Sa, Hst; exact Gp|].
    rewrite Et in E'. injection E' as <-. rewrite <- E1. rewrite Sa in D2.
    assert (L : length (stored (t_align (d_tel d))) = 3%nat) by (rewrite <- (map_length actual), Hst; reflexivity). rewrite L, Hst in D2.
    destruct (D2 0 1 2)%Z as (t & Ht & _); [unfold triangle_of; cbn; lia|exact Ec|]. intros E. rewrite E in Ht. exact Ht. }
  assert (Hnc : ~ collinear q1 q2 q3).
  { unfold collinear, turn, q1, q2, q3, xof, yof. cbn [px py]. lra. }
  assert (Hco : corner_only (t_align (d_tel d)) q3).
  { apply (three_corner_only _ q3 q1 q2 q3 HW); [eapply C36_triangles_well_formed; [exact Hq|exact Em|exact Hr]|exact Hp|exact Hnc|exact Hne]. }
  destruct (Q cs C0) as (Hm & Hf & Hy & B). split; [exact Hm|].
  destruct (norm_exists (match nth_error cs 2 with Some (Sync _ r _ _) => r | _ => 0 end + (sidereal (d_gnss d) - sidereal (d_gnss boot)))) as (s & Bs & Ts).
  eexists q3, _, _, (d_gnss boot), s. split; [exact Hf|]. split; [exists q1, q2, q3; rewrite Hy; auto|]. split; [exact Hco|].
  split; [lra|]. split; [lra|]. split; [rewrite Hg; reflexivity|]. split; [exact Bs|]. split; [exact Ts|exact Ho].
Qed.
End Example.
Print Assumptions C136_nonvacuous.
