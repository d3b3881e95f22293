(** C14, C48, C50, C51, C54, C55, C56: the device as a whole (src/main.cpp). *)
From Verif Require Import Base Num M_Libc P_Libc M_Checkbits M_Linalg M_Helper M_Alignment M_Telescope M_Stellarium M_Gnss M_NexStar S_NexStar P_NexStar M_Led M_Imu M_Main P_Sched P_Main P_Main2.
From Coq Require Import Strings.String.
Notation length := List.length.

Section Device.
Context (N : Num) (T : Trig N) (pf : platform) (oor : conv_policy) (lc : libc N).
Context (qsort : list (vpair N) -> list (vpair N)) (m9 : res (F N)) (junk : option (F N * F N)).
Context (ftext : nat -> F N -> list Z) (left_first : bool) (cfg : config).
Notation dev := (dev N). Notation env := (env N). Notation event := (event N).
Notation boot := (boot N).
Notation loop := (loop N T pf oor lc qsort m9 junk ftext left_first cfg).
Notation step := (step N T pf oor lc qsort m9 junk ftext left_first cfg).
Notation history := (history N T pf oor lc qsort m9 junk ftext left_first cfg).

(** ** C14.  A sync is acknowledged by the single byte '#'. *)
Definition acknowledged (outs : list out) : Prop := In (TcpOut [35]) outs \/ In (BtOut [35]) outs.
Lemma acknowledged_is_ack o : acknowledged o <-> existsb is_ack o = true.
Proof.
  rewrite existsb_exists. split.
  - intros [H|H]; eexists; (split; [exact H|reflexivity]).
  - intros (x & Hi & Hx). destruct x as [b|b| | | | | | ]; try discriminate Hx; destruct b as [|y [|]]; try discriminate Hx; cbn in Hx; apply Z.eqb_eq in Hx; subst y; [left|right]; exact Hi.
Qed.
(** After every history, 'J' answers 1 if a sync has been acknowledged before, 0 if not. *)
Theorem C14_aligned_after_first_sync : forall evs d o r, history boot evs = Ok (d, o) ->
  exists d' b, step d (Bluetooth (74 :: r)) = Ok (d', [BtOut [b; 35]]) /\ (b = 1 <-> acknowledged o) /\ (b = 0 <-> ~ acknowledged o).
Proof.
  intros evs d o r E. apply history_summary in E; [|apply boot_sized]. destruct E as [[S _] C]. cbn [d_tel boot t_cal tele_init] in C.
  change (t_cal (d_tel (M_Main.boot N))) with false in C. cbn [orb] in C.
  pose proof (handle_act N T pf oor qsort m9 junk (d_tel d) (d_gnss d) (74 :: r) [] (d_tx d) 256) as H.
  rewrite app_nil_r in H. cbn [M_Main.step]. unfold onBluetoothData. rewrite H. clear H.
  assert (Ea : act N (d_tel d) (d_gnss d) (74 :: r) = AReply (pc (b2z (t_cal (d_tel d))) ++ [35])).
  { unfold act. rewrite pP_not by reflexivity. reflexivity. }
  rewrite Ea. cbn [perform]. unfold reply. rewrite snprintf_fits by (cbn [length pc app]; lia).
  eexists _, (b2z (t_cal (d_tel d))). split; [|].
  { cbn [bind pc app length]. cbn [Z.of_nat Pos.of_succ_nat Z.to_nat Pos.to_nat Pos.iter_op Z.ltb Z.compare written firstn skipn app].
    replace (u8 (b2z (t_cal (d_tel d)))) with (b2z (t_cal (d_tel d))) by (destruct (t_cal (d_tel d)); reflexivity). reflexivity. }
  rewrite acknowledged_is_ack, C. destruct (existsb is_ack o); cbn [b2z]; split; split; intros; congruence.
Qed.
(** Only sync requests are acknowledged: over Bluetooth exactly when the request is one, over TCP only when the
    receive buffer holds one. *)
Theorem C14_only_syncs_are_acknowledged : forall d ev d' o, step d ev = Ok (d', o) -> sized N d ->
  match ev with
  | Bluetooth req => acknowledged o <-> is_sync req
  | Pass e => acknowledged o -> is_sync (rx_after N d e) /\ has_client d = true /\ e_up_read e = true
  end.
Proof.
  intros d ev d' o E S. destruct ev as [e|req]; cbn [M_Main.step] in E.
  - rewrite acknowledged_is_ack. intros A. rewrite loop_run in E.
    set (d0 := set_timers N d (snd (select (d_timers d) (e_now e)))) in *. assert (S0 : sized N d0) by exact S.
    destruct (the_task N d e); cbn [M_Main.run_task] in E.
    + unfold task_filter in E. destruct (c_sensor cfg).
      * destruct (e_acc e) as [[x y] z]. match type of E with (do _ <- ?r; _) = _ => destruct r as [i|] end; [|discriminate]. apply Ok2 in E. destruct E as [_ <-]. discriminate.
      * apply Ok2 in E. destruct E as [_ <-]. discriminate.
    + unfold task_25ms in E. apply Ok2 in E. destruct E as [_ <-]. destruct (led_update _ _); discriminate.
    + apply task_100_frame in E; [|exact S0]. destruct E as (p & tx & rx & tel & nx & oa & ob & _ & _ & _ & E). cbv zeta in E.
      destruct E as (_ & -> & Po & _ & _ & _ & R1 & R2 & As). rewrite !existsb_app, (pub_not_ack _ Po) in A.
      assert (K : existsb is_ack (snd (if c_wifi cfg then accepts N (d_client d0) e else (d_client d0, []))) = false).
      { clear. destruct (c_wifi cfg); [|reflexivity]. unfold accepts. destruct (e_pending e) as [|p0 more]; [reflexivity|]. destruct (_ && _); [|reflexivity]. destruct more; reflexivity. }
      rewrite K, !orb_false_r in A. split; [exact (As A)|]. change (has_client d0) with (has_client d) in R1.
      destruct (has_client d && e_up_read e) eqn:Ec; [apply andb_true_iff; exact Ec|]. destruct (R1 eq_refl) as [_ ->]. discriminate.
    + apply task_500_state in E; [|exact S0]. destruct E as (d1 & _ & _ & _ & K & _). congruence.
    + apply Ok2 in E. destruct E as [_ <-]. discriminate.
    + apply task_2s_frame in E; [|exact S0]. destruct E as (tx & rx & _ & _ & _ & _ & K & _). congruence.
    + apply Ok2 in E. destruct E as [_ <-]. discriminate.
    + apply Ok2 in E. destruct E as [_ <-]. discriminate.
  - rewrite acknowledged_is_ack. apply bluetooth_frame in E; [|exact S]. destruct E as (n & tx & tel & _ & _ & _ & _ & _ & _ & _ & K & _). exact K.
Qed.
(** In every reachable state the two buffers keep their 256 bytes (the premise above). *)
Theorem C14_reachable_states_sized : forall evs d o, history boot evs = Ok (d, o) -> sized N d.
Proof. intros evs d o E. apply history_summary in E; [tauto|apply boot_sized]. Qed.

(** ** C48.  [ran]: the task each pass of a history runs. *)
Fixpoint ran (d : dev) (evs : list event) : list task :=
  match evs with
  | [] => []
  | ev :: evs =>
      (match ev with Pass e => [the_task N d e] | Bluetooth _ => [] end) ++
      match step d ev with Ok (d', _) => ran d' evs | UB _ => [] end
  end.
(** The passes happen at the (unwrapped) times [times], in microseconds since boot. *)
Inductive timed : list event -> list Z -> Prop :=
| timed_nil : timed [] []
| timed_pass e t evs times : e_now e = u32 t -> timed evs times -> timed (Pass e :: evs) (t :: times)
| timed_bt r evs times : timed evs times -> timed (Bluetooth r :: evs) times.
Lemma step_timers d ev d' o : step d ev = Ok (d', o) -> sized N d ->
  d_timers d' = match ev with Pass e => snd (select (d_timers d) (e_now e)) | Bluetooth _ => d_timers d end.
Proof.
  intros E S. destruct ev as [e|req]; cbn [M_Main.step] in E.
  - apply loop_summary in E; [|exact S]. tauto.
  - apply bluetooth_frame in E; [|exact S]. destruct E as (n & tx & tel & _ & _ & _ & -> & _). destruct (0 <? n); reflexivity.
Qed.
Lemma ran_schedule evs : forall d times d' o, timed evs times -> history d evs = Ok (d', o) -> sized N d ->
  ran d evs = schedule (d_timers d) times /\ d_timers d' = timers_after (d_timers d) times.
Proof.
  induction evs as [|ev evs IH]; intros d times d' o Ht E S; cbn [M_Main.history] in E.
  - inversion Ht; subst. apply Ok2 in E. destruct E as [<- _]. split; reflexivity.
  - destruct (step d ev) as [[d1 o1]|] eqn:E1; [|discriminate]. cbn [bind] in E. destruct (history d1 evs) as [[d2 o2]|] eqn:E2; [|discriminate]. cbn [bind] in E.
    apply Ok2 in E. destruct E as [<- _]. pose proof (step_timers _ _ _ _ E1 S) as K. apply step_summary in E1 as S1; [|exact S]. destruct S1 as [S1 _].
    cbn [ran]. rewrite E1. inversion Ht; subst.
    + match goal with H : timed evs _ |- _ => destruct (IH _ _ _ _ H E2 S1) as [R1 R2] end. rewrite R1, R2, K. cbn [app schedule timers_after]. unfold the_task.
      match goal with H : e_now _ = u32 _ |- _ => rewrite H end. destruct (select (d_timers d) (u32 t)); split; reflexivity.
    + match goal with H : timed evs _ |- _ => destruct (IH _ _ _ _ H E2 S1) as [R1 R2] end. rewrite R1, R2, K. split; reflexivity.
Qed.
(** Two runs of the same task, and boot and the first run, are more than its period apart — across any number
    of wrap-arounds of the 32-bit microsecond counter. *)
Theorem C48_not_early : forall evs times d o t i j x y, history boot evs = Ok (d, o) -> timed evs times -> nondecreasing 0 times ->
  t <> Idle -> (i < j)%nat -> nth_error times i = Some x -> nth_error times j = Some y ->
  nth_error (ran boot evs) i = Some t -> nth_error (ran boot evs) j = Some t -> y - x > period t.
Proof.
  intros evs times d o t i j x y E Ht Hn Hi Hij Hx Hy R1 R2. destruct (ran_schedule _ _ _ _ _ Ht E (boot_sized N)) as [R _]. rewrite R in *.
  eapply not_early; eauto.
Qed.
Theorem C48_first_not_early : forall evs times d o t i x, history boot evs = Ok (d, o) -> timed evs times -> nondecreasing 0 times ->
  t <> Idle -> nth_error times i = Some x -> nth_error (ran boot evs) i = Some t -> x > period t.
Proof.
  intros evs times d o t i x E Ht Hn Hi Hx R1. destruct (ran_schedule _ _ _ _ _ Ht E (boot_sized N)) as [R _]. rewrite R in *.
  pose proof (not_early_from t Hi times (d_timers boot) 0 0 i x) as K. replace (x - 0) with x in K by lia. apply K; try assumption; try lia.
  destruct t; reflexivity.
Qed.
(** A due task runs within as many fast passes as there are tasks of higher priority, plus one.  [r] is when it
    ran last (0: not since boot), [t0] the time from which on the passes of the second part happen. *)
Definition last_run (t : task) (tasks : list task) (times : list Z) (r : Z) : Prop :=
  (r = 0 /\ ~ In t tasks) \/
  exists i, nth_error tasks i = Some t /\ nth_error times i = Some r /\ forall j, (i < j)%nat -> nth_error tasks j <> Some t.
Lemma timers_last t : t <> Idle -> forall times k r0 r, timer_of k t = u32 r0 ->
  ((r = r0 /\ ~ In t (schedule k times)) \/ (exists i, nth_error (schedule k times) i = Some t /\ nth_error times i = Some r /\ forall j, (i < j)%nat -> nth_error (schedule k times) j <> Some t)) ->
  timer_of (timers_after k times) t = u32 r.
Proof.
  intros Ht. induction times as [|x times IH]; intros k r0 r Hk Hl; cbn [schedule timers_after] in *.
  - destruct Hl as [[-> _]|(i & Hi & _)]; [exact Hk|destruct i; discriminate].
  - pose proof (select_timer k (u32 x) t) as ST. destruct (select k (u32 x)) as [task k'] eqn:E. cbn [fst snd] in ST |- *.
    destruct (task_eq_dec task t) as [->|Hne].
    + destruct (task_eq_dec t Idle) as [|_]; [contradiction|]. apply (IH k' x r ST).
      destruct Hl as [[_ H]|(i & Hi & Hx & Hj)]; [exfalso; apply H; left; reflexivity|].
      destruct i as [|i].
      * left. cbn in Hx. injection Hx as <-. split; [reflexivity|]. intros C. apply In_nth_error in C. destruct C as [j C]. apply (Hj (S j)); [lia|exact C].
      * right. exists i. cbn [nth_error] in Hi, Hx. split; [exact Hi|]. split; [exact Hx|]. intros j H. apply (Hj (S j)). lia.
    + rewrite Hk in ST. apply (IH k' r0 r ST). destruct Hl as [[-> H]|(i & Hi & Hx & Hj)].
      * left. split; [reflexivity|]. intros C. apply H. right. exact C.
      * destruct i as [|i]; [cbn in Hi; congruence|]. right. exists i. cbn [nth_error] in Hi, Hx. split; [exact Hi|]. split; [exact Hx|]. intros j H. apply (Hj (S j)). lia.
Qed.
Lemma schedule_app k a : forall b, schedule k (a ++ b) = schedule k a ++ schedule (timers_after k a) b.
Proof. revert k. induction a as [|x a IH]; intros k b; cbn [app schedule timers_after]; [reflexivity|]. destruct (select k (u32 x)) as [t k']. cbn [snd]. rewrite IH. reflexivity. Qed.
Theorem C48_due_task_runs_soon : forall evs1 times1 evs2 times2 d1 o1 d2 o2 t r t0,
  history boot evs1 = Ok (d1, o1) -> timed evs1 times1 -> history d1 evs2 = Ok (d2, o2) -> timed evs2 times2 ->
  t <> Idle -> last_run t (ran boot evs1) times1 r ->
  r <= t0 -> t0 - r > period t -> nondecreasing t0 times2 ->
  (forall x, In x times2 -> x <= t0 + 20000 /\ x - r < 4294967296) ->
  (length (before t) < length times2)%nat -> t0 + 20000 - r < 4294967296 ->
  In t (ran d1 evs2).
Proof.
  intros evs1 times1 evs2 times2 d1 o1 d2 o2 t r t0 E1 T1 E2 T2 Ht Hl Hr Hd Hn Hx Hlen Hspan.
  destruct (ran_schedule _ _ _ _ _ T1 E1 (boot_sized N)) as [R1 K1].
  apply history_summary in E1 as S1; [|apply boot_sized]. destruct S1 as [S1 _].
  destruct (ran_schedule _ _ _ _ _ T2 E2 S1) as [R2 _]. rewrite R2.
  assert (Hk : timer_of (d_timers d1) t = u32 r).
  { rewrite K1. apply (timers_last t Ht times1 (d_timers boot) 0 r).
    - destruct t; reflexivity.
    - unfold last_run in Hl. rewrite R1 in Hl. exact Hl. }
  eapply (schedule_within t Ht (before t) times2 (d_timers d1) r t0 t0 (t0 + 20000)); try assumption; try lia.
  - intros x H. apply Hx, H.
  - apply before_nodup.
  - apply incl_refl.
  - intros u H1 H2. contradiction.
Qed.

(** ** C50.  The LED mode after a pass. *)
Theorem C50_led_mode : forall d e d' o, loop d e = Ok (d', o) -> sized N d ->
  let connected := d_client d <> None /\ e_up_led e = true in
  (the_task N d e = Task100ms ->
     (g_valid (d_gnss d) = false -> d_led d' = BLINK_1HZ) /\
     (g_valid (d_gnss d) = true -> connected -> d_led d' = FLASH_2X_EVERY_5S) /\
     (g_valid (d_gnss d) = true -> ~ connected -> d_led d' = FLASH_1X_EVERY_5S)) /\
  (the_task N d e <> Task100ms -> d_led d' = d_led d).
Proof.
  intros d e d' o E S. cbv zeta. split.
  - intros Et. rewrite loop_run, Et in E. cbn [M_Main.run_task] in E. apply task_100_frame in E; [|exact S].
    destruct E as (p & tx & rx & tel & nx & oa & ob & _ & _ & _ & E). cbv zeta in E. destruct E as (-> & _). cbn [d_led]. unfold led_for.
    change (d_gnss (set_timers N d (snd (select (d_timers d) (e_now e))))) with (d_gnss d).
    change (has_client (set_timers N d (snd (select (d_timers d) (e_now e))))) with (has_client d). unfold has_client.
    split; [intros ->; reflexivity|]. split; intros ->; cbn [negb].
    + intros [H1 H2]. rewrite H2. destruct (d_client d); [reflexivity|congruence].
    + intros H. destruct (d_client d); cbn [andb]; [|reflexivity]. destruct (e_up_led e); [exfalso; apply H; split; [discriminate|reflexivity]|reflexivity].
  - intros Et. apply loop_summary in E; [|exact S]. destruct E as (_ & _ & _ & E & _). apply E. exact Et.
Qed.

(** ** C51.  [polls]: what each run of the 500 ms task found at the GNSS receiver: an accepted sentence, bytes
    without one, or no bytes at all. *)
Definition poll_kind (d : dev) (e : env) (k : poll) : Prop :=
  match k with
  | PollEmpty => e_serial e = []
  | PollAccepted => exists n g, 0 < n /\ fromBuffer N pf oor lc (d_gnss d) (firstn 255 (e_serial e)) = Ok (n, g) /\ e_serial e <> []
  | PollNoise => exists n g, n <= 0 /\ fromBuffer N pf oor lc (d_gnss d) (firstn 255 (e_serial e)) = Ok (n, g) /\ e_serial e <> []
  end.
Inductive polls : dev -> list event -> list poll -> Prop :=
| polls_nil d : polls d [] []
| polls_bt d r d' o evs l : step d (Bluetooth r) = Ok (d', o) -> polls d' evs l -> polls d (Bluetooth r :: evs) l
| polls_other d e d' o evs l : step d (Pass e) = Ok (d', o) -> the_task N d e <> Task500ms -> polls d' evs l -> polls d (Pass e :: evs) l
| polls_poll d e d' o evs l k : step d (Pass e) = Ok (d', o) -> the_task N d e = Task500ms -> poll_kind d e k -> polls d' evs l -> polls d (Pass e :: evs) (k :: l).
Definition empties (l : list poll) : nat := length (filter (fun k => match k with PollEmpty => true | _ => false end) l).

Lemma poll_kind_kind d e k : poll_kind d e k -> kind N pf oor lc d e = k.
Proof.
  unfold kind, poll_kind. destruct k.
  - intros (n & g & Hn & E & Hs). destruct (e_serial e) as [|b bs]; [congruence|]. cbn [firstn] in *. rewrite E. apply Z.ltb_lt in Hn. rewrite Hn. reflexivity.
  - intros (n & g & Hn & E & Hs). destruct (e_serial e) as [|b bs]; [congruence|]. cbn [firstn] in *. rewrite E. apply Z.ltb_ge in Hn. rewrite Hn. reflexivity.
  - intros ->. reflexivity.
Qed.
Fixpoint tick (l : list poll) (t : Z) (a : bool) : Z * bool :=
  match l with [] => (t, a) | k :: l => tick l (timeout_after k t) (available_after k t a) end.
Lemma polls_tick evs : forall d l d' o, polls d evs l -> history d evs = Ok (d', o) -> sized N d ->
  (d_gnssTimeout d', d_gnssAvailable d') = tick l (d_gnssTimeout d) (d_gnssAvailable d).
Proof.
  induction evs as [|ev evs IH]; intros d l d' o Hp E S; cbn [M_Main.history] in E.
  - inversion Hp; subst. apply Ok2 in E. destruct E as [<- _]. reflexivity.
  - destruct (step d ev) as [[d1 o1]|] eqn:E1; [|discriminate]. cbn [bind] in E. destruct (history d1 evs) as [[d2 o2]|] eqn:E2; [|discriminate]. cbn [bind] in E.
    apply Ok2 in E. destruct E as [<- _]. apply step_summary in E1 as S1; [|exact S]. destruct S1 as [S1 _].
    inversion Hp; subst; match goal with H : step d _ = Ok (?dd, _) |- _ => assert (dd = d1) by (rewrite E1 in H; apply Ok2 in H; symmetry; apply H); subst dd end.
    + rewrite (IH _ _ _ _ ltac:(eassumption) E2 S1). cbn [M_Main.step] in E1. apply bluetooth_frame in E1; [|exact S].
      destruct E1 as (n & tx & tel & _ & _ & _ & -> & _). destruct (0 <? n); reflexivity.
    + rewrite (IH _ _ _ _ ltac:(eassumption) E2 S1). cbn [M_Main.step] in E1. apply loop_summary in E1; [|exact S].
      destruct E1 as (_ & _ & _ & _ & K & _). destruct (K ltac:(assumption)) as (_ & -> & ->). reflexivity.
    + rewrite (IH _ _ _ _ ltac:(eassumption) E2 S1). cbn [tick]. cbn [M_Main.step] in E1. rewrite loop_run in E1.
      match goal with H : the_task N d e = Task500ms |- _ => rewrite H in E1 end. cbn [M_Main.run_task] in E1. apply task_500_state in E1; [|exact S].
      destruct E1 as (d0 & _ & (tx & -> & _) & _ & _ & g & rx & ->). cbn [set_tx set_rx set_gnss d_gnssTimeout d_gnssAvailable].
      change (kind N pf oor lc (set_timers N d (snd (select (d_timers d) (e_now e)))) e) with (kind N pf oor lc d e).
      match goal with H : poll_kind d e _ |- _ => rewrite (poll_kind_kind _ _ _ H) end. reflexivity.
Qed.
Lemma tick_spec l : forall t a, 0 <= t <= 20 -> (a = true <-> 0 < t) ->
  let '(t', a') := tick l t a in 0 <= t' <= 20 /\ (a' = true <-> 0 < t') /\
  (0 < t' <-> (exists l1 l2, l = l1 ++ PollAccepted :: l2 /\ ~ In PollAccepted l2 /\ (empties l2 < 20)%nat) \/ (~ In PollAccepted l /\ Z.of_nat (empties l) < t)).
Proof.
  induction l as [|k l IH]; intros t a Ht Ha; cbn [tick].
  - split; [exact Ht|]. split; [exact Ha|]. cbn. split; [intros H; right; split; [tauto|lia]|].
    intros [(l1 & l2 & E & _)|[_ H]]; [destruct l1; discriminate|lia].
  - specialize (IH (timeout_after k t) (available_after k t a)).
    assert (H1 : 0 <= timeout_after k t <= 20).
    { destruct k; cbn [timeout_after]; try lia. destruct (Z.ltb_spec 0 t); lia. }
    assert (H2 : available_after k t a = true <-> 0 < timeout_after k t).
    { destruct k; cbn [available_after]; cbn [timeout_after]; [split; intros; [lia|reflexivity]|exact Ha|apply Z.ltb_lt]. }
    specialize (IH H1 H2). destruct (tick l (timeout_after k t) (available_after k t a)) as [t' a']. destruct IH as (I1 & I2 & I3).
    split; [exact I1|]. split; [exact I2|]. rewrite I3. clear I1 I2 I3 H1 H2 a' t'.
    split; (intros [(l1 & l2 & E & Hn & Hc)|[Hn Hc]]).
    + left. exists (k :: l1), l2. rewrite E. auto.
    + destruct k; cbn [timeout_after] in Hc.
      * left. exists [], l. split; [reflexivity|]. split; [exact Hn|lia].
      * right. split; [intros [C|C]; [discriminate|contradiction]|]. unfold empties in *. cbn [filter]. exact Hc.
      * right. split; [intros [C|C]; [discriminate|contradiction]|]. unfold empties in *. cbn [filter length]. destruct (Z.ltb_spec 0 t); lia.
    + destruct l1 as [|k' l1]; cbn [app] in E; injection E as -> ->.
      * right. split; [exact Hn|]. cbn [timeout_after]. lia.
      * left. exists l1, l2. auto.
    + right. split; [intros C; apply Hn; right; exact C|]. destruct k; [exfalso; apply Hn; left; reflexivity| |]; unfold empties in *; cbn [filter length timeout_after] in *; [exact Hc|].
      destruct (Z.ltb_spec 0 t); lia.
Qed.
(** GNSS data counts as available exactly while some accepted sentence has been followed by fewer than 20 empty
    polls. *)
Theorem C51_available_iff : forall evs l d o, history boot evs = Ok (d, o) -> polls boot evs l ->
  (d_gnssAvailable d = true <->
   exists l1 l2, l = l1 ++ PollAccepted :: l2 /\ ~ In PollAccepted l2 /\ (empties l2 < 20)%nat).
Proof.
  intros evs l d o E Hp. pose proof (polls_tick _ _ _ _ _ Hp E (boot_sized N)) as K.
  pose proof (tick_spec l 0 false ltac:(lia) ltac:(split; [discriminate|lia])) as J.
  change (d_gnssTimeout boot) with 0 in K. change (d_gnssAvailable boot) with false in K. rewrite <- K in J. destruct J as (_ & J1 & J2).
  rewrite J1, J2. split; [intros [H|[_ H]]; [exact H|lia]|intros H; left; exact H].
Qed.
(** every history that runs has such a list of polls *)
Theorem C51_polls_exist : forall evs d d' o, history d evs = Ok (d', o) -> exists l, polls d evs l.
Proof.
  induction evs as [|ev evs IH]; intros d d' o E; cbn [M_Main.history] in E; [exists []; constructor|].
  destruct (step d ev) as [[d1 o1]|] eqn:E1; [|discriminate]. cbn [bind] in E. destruct (history d1 evs) as [[d2 o2]|] eqn:E2; [|discriminate].
  destruct (IH _ _ _ E2) as [l Hl]. destruct ev as [e|r].
  - destruct (task_eq_dec (the_task N d e) Task500ms) as [Et|Et]; [|exists l; eapply polls_other; eauto].
    assert (Hk : exists k, poll_kind d e k).
    { cbn [M_Main.step] in E1. rewrite loop_run, Et in E1. cbn [M_Main.run_task] in E1. unfold task_500ms in E1.
      match type of E1 with (do _ <- ?r; _) = _ => destruct r as [dd|] eqn:Ep end; [|discriminate]. clear E1. unfold poll_gnss in Ep.
      destruct (e_serial e) as [|b bs] eqn:Es; [exists PollEmpty; exact Es|]. cbn [firstn] in Ep. cbv zeta in Ep.
      match type of Ep with (do _ <- fromBuffer N pf oor lc ?x ?y; _) = _ => change x with (d_gnss d) in Ep; destruct (fromBuffer N pf oor lc (d_gnss d) y) as [[n g]|] eqn:Ef end; [|discriminate].
      destruct (Z.ltb_spec 0 n).
      - exists PollAccepted, n, g. rewrite Es. cbn [firstn]. split; [assumption|]. split; [exact Ef|discriminate].
      - exists PollNoise, n, g. rewrite Es. cbn [firstn]. split; [assumption|]. split; [exact Ef|discriminate]. }
    destruct Hk as [k Hk]. exists (k :: l). eapply polls_poll; eauto.
  - exists l. eapply polls_bt; eauto.
Qed.
End Device.
