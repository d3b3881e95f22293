(** C86: bytes without a sentence keep the GNSS "available" for ever (refuted expectation). *)
From Verif Require Import Base Num M_Libc P_Libc M_Checkbits M_Linalg M_Helper M_Alignment S_Alignment P_Alignment P_AlignState P_AlignSmall M_Telescope M_Stellarium S_Stellarium M_Gnss M_NexStar S_NexStar P_NexStar M_Led M_Imu P_Imu M_Main P_Sched P_Main P_Main2 P_Device Properties_Main.
From Coq Require Import Strings.String Permutation.
Open Scope Z_scope.
Notation length := List.length.

Section Device.
Context (N : Num) (T : Trig N) (pf : platform) (oor : conv_policy) (lc : libc N).
Context (qsort : list (vpair N) -> list (vpair N)) (m9 : res (F N)) (junk : option (F N * F N)).
Context (ftext : nat -> F N -> list Z) (left_first : bool) (cfg : config).
Notation dev := (dev N). Notation env := (env N). Notation event := (event N).
Notation loop := (loop N T pf oor lc qsort m9 junk ftext left_first cfg).
Notation step := (step N T pf oor lc qsort m9 junk ftext left_first cfg).
Notation history := (history N T pf oor lc qsort m9 junk ftext left_first cfg).
Notation boot := (boot N).
Notation polls := (polls N T pf oor lc qsort m9 junk ftext left_first cfg).

(** The general rule behind it, for every history. *)
Theorem C86_noise_keeps_gnss_available : forall evs l1 n d o, history boot evs = Ok (d, o) -> polls boot evs (l1 ++ PollAccepted :: repeat PollNoise n) ->
  d_gnssAvailable d = true.
Proof.
  intros evs l1 n d o E Hp. apply (C51_available_iff _ _ _ _ _ _ _ _ _ _ _ _ _ _ _ E Hp). exists l1, (repeat PollNoise n). split; [reflexivity|]. split.
  - intros H. apply repeat_spec in H. discriminate.
  - replace (empties (repeat PollNoise n)) with O; [lia|]. clear. induction n as [|n IH]; [reflexivity|exact IH].
Qed.

(** Four passes, 1 us apart, that run the filter, 25 ms, 100 ms and 500 ms tasks; the last one finds [serial]. *)
Definition pass_at (t : Z) (serial : list Z) : event := Pass (env_at N (u32 t) (Some []) [] [] serial).
Definition four (base : Z) (serial : list Z) : list event := [pass_at base []; pass_at (base + 1) []; pass_at (base + 2) []; pass_at (base + 3) serial].
Definition at_times (k : timers) (base : Z) : Prop := exists r1 r2 r3 r4,
  k_filter k = u32 r1 /\ k_25ms k = u32 r2 /\ k_100ms k = u32 r3 /\ k_500ms k = u32 r4 /\
  500000 < base - r1 < 4000000000 /\ 500000 < base - r2 < 4000000000 /\ 500000 < base - r3 < 4000000000 /\ 500000 < base - r4 < 4000000000.
Definition timers4 (k : timers) (base : Z) : timers := Timers (u32 base) (u32 (base + 1)) (u32 (base + 2)) (u32 (base + 3)) (k_1s k) (k_2s k) (k_30s k).
Lemma at_times_next k base : at_times k base -> at_times (timers4 k base) (base + 500010).
Proof. intros _. exists base, (base + 1), (base + 2), (base + 3). unfold timers4. cbn [k_filter k_25ms k_100ms k_500ms]. repeat (split; [reflexivity|]). lia. Qed.
Lemma not_due a b p : 0 <= a - b < 4294967296 -> a - b <= p -> due (u32 a) (u32 b) p = false.
Proof. intros H1 H2. unfold due. rewrite u32_diff. unfold u32. rewrite Z.mod_small by lia. apply Z.ltb_ge. lia. Qed.

(** without orientation sensor and client the cycle always runs *)
Lemma cycle4 d base serial n g : c_sensor cfg = false -> d_client d = None -> at_times (d_timers d) base -> imu_ok N (d_imu d) ->
  fromBuffer N pf oor lc (d_gnss d) (firstn 255 serial) = Ok (n, g) -> serial <> [] ->
  exists d' o, history d (four base serial) = Ok (d', o) /\ d_timers d' = timers4 (d_timers d) base /\ d_client d' = None /\ imu_ok N (d_imu d') /\ d_gnss d' = g /\
    polls d (four base serial) [if 0 <? n then PollAccepted else PollNoise].
Proof.
  intros Hs Hc (r1 & r2 & r3 & r4 & K1 & K2 & K3 & K4 & H1 & H2 & H3 & H4) Hi Hf Hn.
  set (k := d_timers d) in *.
  set (ka := Timers (u32 base) (k_25ms k) (k_100ms k) (k_500ms k) (k_1s k) (k_2s k) (k_30s k)).
  set (kb := Timers (u32 base) (u32 (base + 1)) (k_100ms k) (k_500ms k) (k_1s k) (k_2s k) (k_30s k)).
  set (kc := Timers (u32 base) (u32 (base + 1)) (u32 (base + 2)) (k_500ms k) (k_1s k) (k_2s k) (k_30s k)).
  assert (Sa : select k (u32 base) = (Filter, ka)). { unfold select. rewrite K1, true_time_due by lia. reflexivity. }
  assert (Sb : select ka (u32 (base + 1)) = (Task25ms, kb)). { unfold select, ka. cbn [k_filter k_25ms k_100ms k_500ms k_1s k_2s k_30s]. rewrite not_due by lia. rewrite K2, true_time_due by lia. reflexivity. }
  assert (Sc : select kb (u32 (base + 2)) = (Task100ms, kc)). { unfold select, kb. cbn [k_filter k_25ms k_100ms k_500ms k_1s k_2s k_30s]. rewrite !not_due by lia. rewrite K3, true_time_due by lia. reflexivity. }
  assert (Sd : select kc (u32 (base + 3)) = (Task500ms, timers4 k base)). { unfold select, kc. cbn [k_filter k_25ms k_100ms k_500ms k_1s k_2s k_30s]. rewrite !not_due by lia. rewrite K4, true_time_due by lia. reflexivity. }
  set (da := set_timers N d ka). assert (Ea : step d (pass_at base []) = Ok (da, [])).
  { cbn [M_Main.step pass_at]. unfold M_Main.loop. cbn [env_at e_now]. fold k. rewrite Sa. cbn [run_task]. unfold task_filter. rewrite Hs. reflexivity. }
  set (db := set_timers N d kb). assert (Eb : exists ob, step da (pass_at (base + 1) []) = Ok (db, ob)).
  { eexists. cbn [M_Main.step pass_at]. unfold M_Main.loop. cbn [env_at e_now]. change (d_timers da) with ka. rewrite Sb. reflexivity. }
  destruct Eb as [ob Eb]. destruct (imu_ok_pitch N T db Hi) as [p Ep].
  assert (Ec : exists dc oc, step db (pass_at (base + 2) []) = Ok (dc, oc) /\ d_timers dc = kc /\ d_client dc = None /\ d_imu dc = d_imu d /\ d_gnss dc = d_gnss d).
  { cbn [M_Main.step pass_at]. unfold M_Main.loop. cbn [env_at e_now]. change (d_timers db) with kb. rewrite Sc. cbn [run_task]. unfold task_100ms.
    change (measure_pitch N T (set_timers N db kc)) with (measure_pitch N T db). rewrite Ep. cbn [bind]. cbv zeta.
    unfold has_client at 1. cbn [set_tel set_attitude set_timers d_client db]. rewrite Hc. cbn [andb bind].
    match goal with |- context[if c_mqtt cfg then mqtt_loop N ?x ?m else _] => replace (if c_mqtt cfg then mqtt_loop N x m else Ok (x, [])) with (Ok (x, @nil out)) by (destruct (c_mqtt cfg); reflexivity) end.
    cbn [bind].
    match goal with |- context[if c_wifi cfg then checkForConnections N ?x ?m else _] => replace (if c_wifi cfg then checkForConnections N x m else (x, [])) with (x, @nil out) by (destruct (c_wifi cfg); reflexivity) end.
    eexists _, _. split; [reflexivity|]. cbn [set_led d_timers d_client d_imu d_gnss]. repeat split; assumption || reflexivity. }
  destruct Ec as (dc & oc & Ec & Tc & Cc & Ic & Gc).
  assert (Ed : exists dd od, step dc (pass_at (base + 3) serial) = Ok (dd, od) /\ d_timers dd = timers4 k base /\ d_client dd = None /\ d_imu dd = d_imu d /\ d_gnss dd = g).
  { cbn [M_Main.step pass_at]. unfold M_Main.loop. cbn [env_at e_now]. rewrite Tc, Sd. cbn [run_task]. unfold task_500ms. rewrite Hs. unfold poll_gnss. cbn [env_at e_serial].
    destruct serial as [|s0 ss]; [congruence|]. cbn [firstn] in Hf |- *. cbv zeta. cbn [set_rx set_timers d_gnss]. rewrite Gc, Hf. cbn [bind].
    destruct (0 <? n); (eexists _, _; split; [reflexivity|]; cbn [set_gnss d_timers d_client d_imu d_gnss]; repeat split; assumption || reflexivity). }
  destruct Ed as (dd & od & Ed & Td & Cd & Id & Gd).
  eexists dd, _. split.
  { unfold four. cbn [M_Main.history]. rewrite Ea. cbn [bind]. rewrite Eb. cbn [bind]. rewrite Ec. cbn [bind]. rewrite Ed. cbn [bind]. reflexivity. }
  split; [exact Td|]. split; [exact Cd|]. split; [rewrite Id; exact Hi|]. split; [exact Gd|].
  unfold four. eapply polls_other; [exact Ea|unfold the_task; cbn [env_at e_now]; fold k; rewrite Sa; discriminate|].
  eapply polls_other; [exact Eb|unfold the_task; cbn [env_at e_now]; change (d_timers da) with ka; rewrite Sb; discriminate|].
  eapply polls_other; [exact Ec|unfold the_task; cbn [env_at e_now]; change (d_timers db) with kb; rewrite Sc; discriminate|].
  eapply polls_poll; [exact Ed|unfold the_task; cbn [env_at e_now]; rewrite Tc, Sd; reflexivity| |constructor].
  unfold poll_kind. cbn [env_at e_serial]. rewrite Gc. destruct (Z.ltb_spec 0 n); (exists n, g; split; [assumption|split; [exact Hf|exact Hn]]).
Qed.
Lemma polls_app evs1 : forall d d1 o1 evs2 l1 l2, history d evs1 = Ok (d1, o1) -> polls d evs1 l1 -> polls d1 evs2 l2 -> polls d (evs1 ++ evs2) (l1 ++ l2).
Proof.
  induction evs1 as [|ev evs1 IH]; intros d d1 o1 evs2 l1 l2 E P1 P2; cbn [M_Main.history app] in *.
  - apply Ok2 in E. destruct E as [<- _]. inversion P1; subst. exact P2.
  - destruct (step d ev) as [[dx ox]|] eqn:Ex; [|discriminate]. cbn [bind] in E. destruct (history dx evs1) as [[dy oy]|] eqn:Ey; [|discriminate]. cbn [bind] in E. apply Ok2 in E. destruct E as [<- _].
    inversion P1; subst; match goal with H : step d _ = Ok (?q, _) |- _ => assert (q = dx) by (rewrite Ex in H; apply Ok2 in H; symmetry; apply H); subst q end; cbn [app].
    + eapply polls_bt; [exact Ex|]. eapply IH; eauto.
    + eapply polls_other; [exact Ex|assumption|]. eapply IH; eauto.
    + eapply polls_poll; [exact Ex|assumption|assumption|]. eapply IH; eauto.
Qed.

Definition gsv : list Z := str "$GPGSV,3,1,12*78" ++ [10].
Lemma gsv_accepted g : exists g', fromBuffer N pf oor lc g (firstn 255 gsv) = Ok (1, g').
Proof. destruct pf as [[|] [|] [|]]; eexists; vm_compute; reflexivity. Qed.
(** noise: the byte 'X', once per poll *)
Lemma noise_ignored g : fromBuffer N pf oor lc g (firstn 255 [88]) = Ok (0, g).
Proof. reflexivity. Qed.
Fixpoint noisy (base : Z) (n : nat) : list event := match n with O => [] | S n => four base [88] ++ noisy (base + 500010) n end.
Lemma noisy_ok n : c_sensor cfg = false -> forall d base, d_client d = None -> at_times (d_timers d) base -> imu_ok N (d_imu d) ->
  exists d' o, history d (noisy base n) = Ok (d', o) /\ polls d (noisy base n) (repeat PollNoise n).
Proof.
  intros Hs. induction n as [|n IH]; intros d base Hc Ht Hi; cbn [noisy repeat].
  - exists d, []. split; [reflexivity|constructor].
  - destruct (cycle4 d base [88] 0 (d_gnss d) Hs Hc Ht Hi (noise_ignored _) ltac:(discriminate)) as (d1 & o1 & E1 & T1 & C1 & I1 & _ & P1).
    destruct (IH d1 (base + 500010) C1 ltac:(rewrite T1; apply at_times_next; exact Ht) I1) as (d2 & o2 & E2 & P2).
    exists d2, (o1 ++ o2). rewrite history_app, E1. cbn [bind]. rewrite E2. split; [reflexivity|]. exact (polls_app _ _ _ _ _ _ _ E1 P1 P2).
Qed.
(** One accepted sentence, then noise for n polls (n half seconds): the receiver still counts as available. *)
Theorem C86_garbage_never_times_out_refuted : c_sensor cfg = false -> forall n,
  exists d o, history boot (four 1000000 gsv ++ noisy 1500010 n) = Ok (d, o) /\
    polls boot (four 1000000 gsv ++ noisy 1500010 n) (PollAccepted :: repeat PollNoise n) /\ d_gnssAvailable d = true.
Proof.
  intros Hs n. assert (H0 : at_times (d_timers boot) 1000000).
  { exists 0, 0, 0, 0. repeat (split; [reflexivity|]). lia. }
  destruct (gsv_accepted (d_gnss boot)) as (g' & Eg).
  destruct (cycle4 boot 1000000 gsv 1 g' Hs eq_refl H0 (imu_ok_init N) Eg ltac:(discriminate)) as (d1 & o1 & E1 & T1 & C1 & I1 & _ & P1).
  destruct (noisy_ok n Hs d1 1500010 C1 ltac:(rewrite T1; apply (at_times_next _ _ H0)) I1) as (d2 & o2 & E2 & P2).
  exists d2, (o1 ++ o2). assert (E : history boot (four 1000000 gsv ++ noisy 1500010 n) = Ok (d2, o1 ++ o2)). { rewrite history_app, E1. cbn [bind]. rewrite E2. reflexivity. }
  pose proof (polls_app _ _ _ _ _ _ _ E1 P1 P2) as P. cbn [Z.ltb Z.compare app] in P. split; [exact E|]. split; [exact P|].
  exact (C86_noise_keeps_gnss_available _ [] n _ _ E P).
Qed.
End Device.
