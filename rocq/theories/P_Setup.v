(** Start-up and the outputs that can follow it. *)
From Verif Require Import Base Num M_Libc M_Checkbits M_Linalg M_Helper M_Alignment M_Telescope M_Stellarium M_Gnss M_NexStar S_NexStar P_NexStar M_Led M_Imu M_Main P_Sched P_Main P_Main2 M_Setup S_Setup.
From Coq Require Import Strings.String.
Notation length := List.length.

Lemma wait_wifi_spec h retries : forall k, let '(k', a) := wait_wifi h k retries in
  (exists i, (i <= retries)%nat /\ k' = S (k + i) /\ (forall j, (j < i)%nat -> h_connected h (k + j) = false) /\
    (i = retries \/ h_connected h (k + i) = true) /\ a = repeat (Delay 1000) i).
Proof.
  induction retries as [|r IH]; intros k; cbn [wait_wifi].
  - destruct (h_connected h k) eqn:E; exists O; rewrite Nat.add_0_r; (split; [lia|]; split; [lia|]; split; [lia|]; split; [left; reflexivity|reflexivity]).
  - destruct (h_connected h k) eqn:E.
    + exists O. rewrite Nat.add_0_r. split; [lia|]. split; [lia|]. split; [lia|]. split; [right; exact E|reflexivity].
    + specialize (IH (S k)). destruct (wait_wifi h (S k) r) as [k' a]. destruct IH as (i & Hi & -> & Hf & Ho & ->).
      exists (S i). split; [lia|]. split; [lia|]. split; [|split; [|reflexivity]].
      * intros [|j] Hj; [rewrite Nat.add_0_r; exact E|]. replace (k + S j)%nat with (S k + j)%nat by lia. apply Hf. lia.
      * destruct Ho as [Ho|Ho]; [left; lia|right]. replace (k + S i)%nat with (S k + i)%nat by lia. exact Ho.
Qed.
Lemma found_iff h : let '(k, _) := wait_wifi h 0 5 in found_in_time (h_connected h) <-> h_connected h k = true.
Proof.
  pose proof (wait_wifi_spec h 5 0) as W. destruct (wait_wifi h 0 5) as [k' a]. destruct W as (i & Hi & -> & Hf & Ho & _).
  cbn [Nat.add] in *. unfold found_in_time. split.
  - intros [(k & Hk & Hk1 & Hk2 & Hk3)|[Ha H6]].
    + assert (k = i); [|subst; exact Hk3]. destruct (Nat.lt_trichotomy k i) as [L|[L|L]]; [rewrite Hf in Hk2 by exact L; discriminate|exact L|].
      destruct Ho as [ -> |Ho]; [lia|]. rewrite Hk1 in Ho by exact L. discriminate.
    + assert (i = 5%nat); [|subst; exact H6]. destruct Ho as [Ho|Ho]; [exact Ho|]. rewrite Ha in Ho by lia. discriminate.
  - intros H. destruct (h_connected h i) eqn:Ei.
    + left. exists i. auto.
    + right. destruct Ho as [ -> |Ho]; [|discriminate]. split; [|exact H]. intros j Hj. destruct (Nat.eq_dec j 5) as [ -> |]; [exact Ei|apply Hf; lia].
Qed.

(** ** outputs *)
Section P.
Context (N : Num) (T : Trig N) (pf : platform) (oor : conv_policy) (lc : libc N).
Context (qsort : list (vpair N) -> list (vpair N)) (m9 : res (F N)) (junk : option (F N * F N)).
Context (ftext : nat -> F N -> list Z) (left_first : bool) (cfg : config).
Notation dev := (dev N). Notation env := (env N). Notation event := (event N).
Notation loop := (loop N T pf oor lc qsort m9 junk ftext left_first cfg).
Notation step := (step N T pf oor lc qsort m9 junk ftext left_first cfg).
Notation history := (history N T pf oor lc qsort m9 junk ftext left_first cfg).

(** what may be published, given whether a client is there *)
Definition may (cl bt : bool) (o : out) : Prop :=
  match service_of o with
  | TcpService => c_wifi cfg = true \/ cl = true
  | BluetoothService => bt = true
  | RemoteMqtt => c_mqtt cfg = true
  | LocalBroker => c_broker cfg = true
  | LedService => True
  end.
Definition pub_ok (o : out) : Prop := match o with MqttOut _ _ => c_mqtt cfg = true | BrokerOut _ _ => c_broker cfg = true | _ => False end.
Lemma pub_may cl bt o : Forall pub_ok o -> Forall (may cl bt) o.
Proof. apply Forall_impl. intros []; cbn; tauto. Qed.
Lemma mqtt_publish_ok tp mem n : c_mqtt cfg = true -> Forall pub_ok (mqtt_publish tp mem n).
Proof. intros H. unfold mqtt_publish. destruct (_ <=? _); repeat constructor; exact H. Qed.
Lemma publish_tx_ok tp tx n o : publish_tx cfg tp tx n = Ok o -> Forall pub_ok o.
Proof.
  unfold publish_tx. intros E.
  assert (M : Forall pub_ok (if c_mqtt cfg then mqtt_publish tp tx n else [])) by (destruct (c_mqtt cfg) eqn:Em; [apply mqtt_publish_ok; exact Em|constructor]).
  destruct (c_broker cfg) eqn:Eb.
  - destruct (cstring tx); [|discriminate]. cbn [bind] in E. apply Ok1 in E. subst. apply Forall_app. split; [exact M|]. constructor; [exact Eb|constructor].
  - cbn [bind] in E. apply Ok1 in E. subst. rewrite app_nil_r. exact M.
Qed.
Lemma publish_text_ok d tp text d' o : publish_text N cfg d tp text = Ok (d', o) -> Forall pub_ok o.
Proof.
  unfold publish_text. destruct (snprintf (d_tx d) 256 text) as [[n tx]|] eqn:E; [|discriminate]. cbn [bind].
  destruct (publish_tx cfg tp tx n) eqn:Ep; [|discriminate]. cbn [bind]. intros H. apply Ok2 in H. destruct H as [_ <-]. eapply publish_tx_ok; eauto.
Qed.
Lemma publish_points_ok d tp ps d' o : publish_points N ftext cfg d tp ps = Ok (d', o) -> Forall pub_ok o.
Proof.
  unfold publish_points. destruct (wr (d_tx d) 0 91) as [tx1|] eqn:E1; [|discriminate]. cbn [bind].
  destruct (append_points N ftext tx1 1 ps) as [[len tx2]|] eqn:E2; [|discriminate]. cbn [bind].
  destruct (wr tx2 (Z.to_nat len) 93) as [tx3|] eqn:E3; [|discriminate]. cbn [bind].
  destruct (publish_tx cfg tp tx3 (len + 1)) eqn:Ep; [|discriminate]. cbn [bind]. intros H. apply Ok2 in H. destruct H as [_ <-]. eapply publish_tx_ok; eauto.
Qed.
Lemma send_position_may bt d e q d' o : send_position N oor d e q = Ok (d', o) -> Forall (may (has_client d) bt) o.
Proof.
  intros E. apply send_position_frame in E. destruct E as [_ [ -> |((b & -> & _) & H & _)]]; [constructor|].
  constructor; [right; exact H|constructor].
Qed.
Lemma task_500_may bt d e d' o : task_500ms N T pf oor lc ftext cfg d e = Ok (d', o) -> length (d_rx d) = 256%nat ->
  Forall (may (has_client d) bt) o /\ has_client d' = has_client d.
Proof.
  intros E Hr. pose proof E as E0. apply task_500_frame in E0; [|exact Hr]. destruct E0 as (d1 & q & ty & Ep & (tx & -> & _) & Hs0 & Hs1).
  pose proof Ep as Ep0. apply poll_frame in Ep0; [|exact Hr]. destruct Ep0 as (rx & g & Ed1 & _).
  assert (Hc : has_client d1 = has_client d) by (subst d1; reflexivity). split; [|exact Hc].
  unfold task_500ms in E. rewrite Ep in E. cbn [bind] in E.
  destruct (c_sensor cfg) eqn:Ec.
  - cbv zeta in E. destruct (Hs1 eq_refl) as [Eq _]. rewrite Eq in E. cbn [bind] in E.
    apply andthen_inv in E. destruct E as (d2 & o1 & o2 & E1 & E & ->).
    apply Forall_app. split; [rewrite <- Hc; eapply send_position_may; exact E1|]. apply pub_may. clear E1 Hs1 Hs0.
    do 9 (apply andthen_inv in E; let d3 := fresh "d" in let oa := fresh "o" in let ob := fresh "o" in let H := fresh "H" in
          destruct E as (d3 & oa & ob & H & E & ->); apply publish_text_ok in H; apply Forall_app; split; [exact H|]; clear H).
    do 2 (apply andthen_inv in E; let d3 := fresh "d" in let oa := fresh "o" in let ob := fresh "o" in let H := fresh "H" in
          destruct E as (d3 & oa & ob & H & E & ->); apply publish_points_ok in H; apply Forall_app; split; [exact H|]; clear H).
    match type of E with (do _ <- ?r; _) = _ => destruct r end; [|discriminate]. cbn [bind] in E. apply publish_text_ok in E. exact E.
  - destruct (Hs0 eq_refl) as [-> _]. constructor.
Qed.
Lemma callback_ok d tp pl d' o : c_mqtt cfg = true -> mqttCallback N d tp pl = Ok (d', o) -> Forall pub_ok o.
Proof.
  intros Hm. unfold mqttCallback. destruct pl as [|c pl]. { intros E. apply Ok2 in E. destruct E as [_ <-]. constructor. }
  destruct (find_sub _ _). 2:{ intros E. apply Ok2 in E. destruct E as [_ <-]. constructor. }
  destruct (c =? 49). 2:{ intros E. apply Ok2 in E. destruct E as [_ <-]. constructor. }
  cbv zeta. destruct (wr _ 0 48); [|discriminate]. cbn [bind]. intros E. apply Ok2 in E. destruct E as [_ <-]. apply mqtt_publish_ok. exact Hm.
Qed.
Lemma mqtt_loop_ok msgs : c_mqtt cfg = true -> forall d d' o, mqtt_loop N d msgs = Ok (d', o) -> Forall pub_ok o.
Proof.
  intros Hm. induction msgs as [|[tp pl] msgs IH]; intros d d' o E; cbn [mqtt_loop] in E.
  - apply Ok2 in E. destruct E as [_ <-]. constructor.
  - destruct (mqttCallback N d tp pl) as [[d1 o1]|] eqn:E1; [|discriminate]. cbn [bind] in E.
    destruct (mqtt_loop N d1 msgs) as [[d2 o2]|] eqn:E2; [|discriminate]. cbn [bind] in E. apply Ok2 in E. destruct E as [_ <-].
    apply Forall_app. split; [eapply callback_ok; eauto|eapply IH; eauto].
Qed.
Lemma task_100_may bt d e d' o : task_100ms N T pf oor qsort m9 junk left_first cfg d e = Ok (d', o) -> sized N d ->
  Forall (may (has_client d) bt) o /\ (has_client d' = true -> has_client d = true \/ c_wifi cfg = true).
Proof.
  intros E S. pose proof E as E0. apply task_100_frame in E0; [|exact S].
  destruct E0 as (p0 & tx & rx & tel & nx & oa & ob & _ & _ & _ & Ed & _). cbv zeta in Ed. split.
  - apply task_100_parts in E. destruct E as (p & d1 & o1 & d2 & o2 & Em & E1 & E2 & _ & ->).
    apply Forall_app. split; [|apply Forall_app; split].
    + unfold tcp_part in E1. change (has_client (d_after_read N left_first d e p)) with (has_client d) in E1. destruct (has_client d && e_up_read e) eqn:Eh.
      * apply andb_true_iff in Eh. apply serve_tcp_frame in E1; [|exact S]. destruct E1 as (tx1 & tel1 & nx1 & _ & _ & _ & _ & [[-> _]|(b & -> & _)] & _); [constructor|].
        constructor; [right; apply Eh|constructor].
      * apply Ok2 in E1. destruct E1 as [_ <-]. constructor.
    + apply pub_may. unfold mqtt_part in E2. destruct (c_mqtt cfg) eqn:Ec; [eapply mqtt_loop_ok; eauto|apply Ok2 in E2; destruct E2 as [_ <-]; constructor].
    + unfold conn_part. rewrite check_accepts. destruct (c_wifi cfg) eqn:Ew; [|constructor]. cbn [snd]. unfold accepts.
      destruct (e_pending e) as [|c more]; [constructor|]. destruct (_ && _); cbn [snd].
      * constructor; [left; exact Ew|]. destruct more; [constructor|]. constructor; [left; exact Ew|constructor].
      * constructor; [left; exact Ew|constructor].
  - rewrite Ed. unfold has_client. cbn [d_client]. destruct (c_wifi cfg); [auto|]. cbn [fst]. auto.
Qed.
Lemma task_2s_may bt d e d' o : task_2s N ftext cfg d e = Ok (d', o) -> sized N d -> Forall (may (has_client d) bt) o /\ has_client d' = has_client d.
Proof.
  intros E S. split.
  - unfold task_2s in E. destruct (wr (d_tx d) 0 0) as [t1|]; [|discriminate]. cbn [bind] in E. destruct (wr t1 1 0) as [t2|]; [|discriminate]. cbn [bind] in E.
    destruct (wr (d_rx d) 0 1) as [t3|]; [|discriminate]. cbn [bind] in E. destruct (wr t3 1 2) as [t4|]; [|discriminate]. cbn [bind] in E. cbv zeta in E.
    match type of E with (do _ <- ?r; _) = _ => destruct r as [[d1 o1]|] eqn:E1 end; [|discriminate]. cbn [bind] in E. apply Ok2 in E. destruct E as [_ <-].
    apply Forall_app. split.
    + apply pub_may. destruct (d_gnssAvailable _).
      * destruct (snprintf _ 256 _) as [[len tx]|]; [|discriminate]. cbn [bind] in E1.
        assert (M : Forall pub_ok (if c_mqtt cfg then mqtt_publish (topic "gnss") tx len else [])) by (destruct (c_mqtt cfg) eqn:Em; [apply mqtt_publish_ok; exact Em|constructor]).
        destruct (c_broker cfg) eqn:Eb.
        -- destruct (cstring tx); [|discriminate]. cbn [bind] in E1. apply Ok2 in E1. destruct E1 as [_ <-]. constructor; [exact Eb|exact M].
        -- cbn [bind] in E1. apply Ok2 in E1. destruct E1 as [_ <-]. exact M.
      * apply Ok2 in E1. destruct E1 as [_ <-]. constructor.
    + destruct (c_mqtt cfg && negb (e_mqtt_up e)) eqn:Em; [|constructor]. apply andb_true_iff in Em. constructor; [exact (proj1 Em)|constructor].
  - apply task_2s_frame in E; [|exact S]. destruct E as (tx & rx & _ & _ & -> & _). destruct (c_sensor cfg); reflexivity.
Qed.
Lemma step_may d ev d' o : step d ev = Ok (d', o) -> sized N d ->
  Forall (may (has_client d) (match ev with Bluetooth _ => true | Pass _ => false end)) o /\ (has_client d' = true -> has_client d = true \/ c_wifi cfg = true).
Proof.
  destruct ev as [e|req]; cbn [M_Main.step]; intros E S.
  - unfold M_Main.loop in E. destruct (select (d_timers d) (e_now e)) as [t k]. set (d0 := set_timers N d k) in E.
    assert (Sz : sized N d0) by exact S. change (has_client d) with (has_client d0).
    destruct t; cbn [M_Main.run_task] in E.
    + unfold task_filter in E. destruct (c_sensor cfg).
      * destruct (e_acc e) as [[x y] z]. destruct (accSample N (d_imu d0) x y z); [|discriminate]. cbn [bind] in E. apply Ok2 in E. destruct E as [<- <-]. split; [constructor|auto].
      * apply Ok2 in E. destruct E as [<- <-]. split; [constructor|auto].
    + unfold task_25ms in E. apply Ok2 in E. destruct E as [<- <-]. split; [|auto]. destruct (led_update _ _); repeat constructor.
    + eapply task_100_may; eassumption.
    + apply (task_500_may false) in E; [|apply Sz]. destruct E as [E1 E2]. rewrite E2. auto.
    + apply Ok2 in E. destruct E as [<- <-]. split; [constructor|auto].
    + apply (task_2s_may false) in E; [|exact Sz]. destruct E as [E1 E2]. rewrite E2. auto.
    + apply Ok2 in E. destruct E as [<- <-]. split; [constructor|auto].
    + apply Ok2 in E. destruct E as [<- <-]. split; [constructor|auto].
  - apply bluetooth_frame in E; [|exact S]. destruct E as (n & tx & tel & _ & _ & _ & -> & -> & _).
    destruct (0 <? n); cbn; (split; [repeat constructor|auto]).
Qed.
Lemma history_may evs : forall d d' o, history d evs = Ok (d', o) -> sized N d -> has_client d = false \/ c_wifi cfg = true ->
  forall x, In x o -> exists ev, In ev evs /\ may (c_wifi cfg) (match ev with Bluetooth _ => true | Pass _ => false end) x.
Proof.
  induction evs as [|ev evs IH]; intros d d' o E S H x Hx; cbn [M_Main.history] in E.
  - apply Ok2 in E. destruct E as [_ <-]. destruct Hx.
  - destruct (step d ev) as [[d1 o1]|] eqn:E1; [|discriminate]. cbn [bind] in E. destruct (history d1 evs) as [[d2 o2]|] eqn:E2; [|discriminate]. cbn [bind] in E.
    apply Ok2 in E. destruct E as [_ <-]. apply step_summary in E1 as SS; [|exact S]. destruct (step_may _ _ _ _ E1 S) as [F1 C1].
    apply in_app_or in Hx. destruct Hx as [Hx|Hx].
    + exists ev. split; [left; reflexivity|]. rewrite Forall_forall in F1. specialize (F1 x Hx). revert F1. unfold may.
      destruct (service_of x); auto. intros [F1|F1]; [left; exact F1|]. destruct H as [H|H]; [congruence|left; exact H].
    + destruct (IH _ _ _ E2 (proj1 SS)) with (x := x) as (ev' & I & M).
      * destruct (has_client d1) eqn:Eh; [right|left; reflexivity]. destruct (C1 eq_refl) as [C2|C2]; [|exact C2]. destruct H as [H|H]; [congruence|exact H].
      * exact Hx.
      * exists ev'. split; [right; exact I|exact M].
Qed.

(** ** without the sensor *)
Definition no_position (o : out) : Prop :=
  match o with
  | MqttOut t _ | BrokerOut t _ => t = CONTROL_TOPIC \/ t = topic "gnss"
  | TcpOut b => (length b <= 18)%nat
  | _ => True
  end.
Lemma mqtt_publish_topic tp mem n : (tp = CONTROL_TOPIC \/ tp = topic "gnss") -> Forall no_position (mqtt_publish tp mem n).
Proof. intros H. unfold mqtt_publish. destruct (_ <=? _); constructor; [exact H|constructor]. Qed.
Lemma mqtt_loop_topic msgs : forall d d' o, mqtt_loop N d msgs = Ok (d', o) -> Forall no_position o.
Proof.
  induction msgs as [|[tp pl] msgs IH]; intros d d' o E; cbn [mqtt_loop] in E.
  - apply Ok2 in E. destruct E as [_ <-]. constructor.
  - destruct (mqttCallback N d tp pl) as [[d1 o1]|] eqn:E1; [|discriminate]. cbn [bind] in E.
    destruct (mqtt_loop N d1 msgs) as [[d2 o2]|] eqn:E2; [|discriminate]. cbn [bind] in E. apply Ok2 in E. destruct E as [_ <-].
    apply Forall_app. split; [|eapply IH; eauto]. revert E1. unfold mqttCallback. destruct pl as [|c pl]. { intros E. apply Ok2 in E. destruct E as [_ <-]. constructor. }
    destruct (find_sub _ _). 2:{ intros E. apply Ok2 in E. destruct E as [_ <-]. constructor. }
    destruct (c =? 49). 2:{ intros E. apply Ok2 in E. destruct E as [_ <-]. constructor. }
    cbv zeta. destruct (wr _ 0 48); [|discriminate]. cbn [bind]. intros E. apply Ok2 in E. destruct E as [_ <-]. apply mqtt_publish_topic. left. reflexivity.
Qed.
Lemma step_no_sensor d ev d' o : c_sensor cfg = false -> step d ev = Ok (d', o) -> sized N d -> Forall no_position o.
Proof.
  intros Hc. destruct ev as [e|req]; cbn [M_Main.step]; intros E S.
  - unfold M_Main.loop in E. destruct (select (d_timers d) (e_now e)) as [t k]. set (d0 := set_timers N d k) in E.
    assert (Sz : sized N d0) by exact S.
    destruct t; cbn [M_Main.run_task] in E; try (apply Ok2 in E; destruct E as [_ <-]; constructor).
    + unfold task_filter in E. rewrite Hc in E. apply Ok2 in E. destruct E as [_ <-]. constructor.
    + unfold task_25ms in E. apply Ok2 in E. destruct E as [_ <-]. destruct (led_update _ _); repeat constructor.
    + apply task_100_parts in E. destruct E as (p & d1 & o1 & d2 & o2 & Em & E1 & E2 & _ & ->).
      apply Forall_app. split; [|apply Forall_app; split].
      * unfold tcp_part in E1. destruct (_ && e_up_read e).
        -- apply serve_tcp_frame in E1; [|exact Sz]. destruct E1 as (tx1 & tel1 & nx1 & _ & _ & _ & _ & [[-> _]|(b & -> & Hb & _)] & _); [constructor|].
           constructor; [cbn; lia|constructor].
        -- apply Ok2 in E1. destruct E1 as [_ <-]. constructor.
      * unfold mqtt_part in E2. destruct (c_mqtt cfg); [eapply mqtt_loop_topic; eauto|apply Ok2 in E2; destruct E2 as [_ <-]; constructor].
      * unfold conn_part. rewrite check_accepts. destruct (c_wifi cfg); [|constructor]. cbn [snd]. unfold accepts.
        destruct (e_pending e) as [|c more]; [constructor|]. destruct (_ && _); cbn [snd]; [|repeat constructor]. constructor; [exact I|]. destruct more; repeat constructor.
    + apply task_500_frame in E; [|apply Sz]. destruct E as (d1 & q & ty & _ & _ & H & _). destruct (H Hc) as [-> _]. constructor.
    + unfold task_2s in E. destruct (wr (d_tx d0) 0 0) as [t1|]; [|discriminate]. cbn [bind] in E. destruct (wr t1 1 0) as [t2|]; [|discriminate]. cbn [bind] in E.
      destruct (wr (d_rx d0) 0 1) as [t3|]; [|discriminate]. cbn [bind] in E. destruct (wr t3 1 2) as [t4|]; [|discriminate]. cbn [bind] in E. cbv zeta in E.
      match type of E with (do _ <- ?r; _) = _ => destruct r as [[d1 o1]|] eqn:E1 end; [|discriminate]. cbn [bind] in E. apply Ok2 in E. destruct E as [_ <-].
      apply Forall_app. split; [|destruct (_ && _); repeat constructor].
      destruct (d_gnssAvailable _).
      * destruct (snprintf _ 256 _) as [[len tx]|]; [|discriminate]. cbn [bind] in E1.
        assert (M : Forall no_position (if c_mqtt cfg then mqtt_publish (topic "gnss") tx len else [])) by (destruct (c_mqtt cfg); [apply mqtt_publish_topic; right; reflexivity|constructor]).
        destruct (c_broker cfg).
        -- destruct (cstring tx); [|discriminate]. cbn [bind] in E1. apply Ok2 in E1. destruct E1 as [_ <-]. constructor; [right; reflexivity|exact M].
        -- cbn [bind] in E1. apply Ok2 in E1. destruct E1 as [_ <-]. exact M.
      * apply Ok2 in E1. destruct E1 as [_ <-]. constructor.
  - apply bluetooth_frame in E; [|exact S]. destruct E as (n & tx & tel & _ & _ & _ & _ & -> & _). destruct (0 <? n); repeat constructor.
Qed.
Lemma history_no_sensor evs : c_sensor cfg = false -> forall d d' o, history d evs = Ok (d', o) -> sized N d -> Forall no_position o.
Proof.
  intros Hc. induction evs as [|ev evs IH]; intros d d' o E S; cbn [M_Main.history] in E.
  - apply Ok2 in E. destruct E as [_ <-]. constructor.
  - destruct (step d ev) as [[d1 o1]|] eqn:E1; [|discriminate]. cbn [bind] in E. destruct (history d1 evs) as [[d2 o2]|] eqn:E2; [|discriminate]. cbn [bind] in E.
    apply Ok2 in E. destruct E as [_ <-]. apply step_summary in E1 as SS; [|exact S]. apply Forall_app. split; [eapply step_no_sensor; eauto|eapply IH; [exact E2|apply SS]].
Qed.
End P.
