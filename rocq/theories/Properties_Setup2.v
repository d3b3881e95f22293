(** C115-C119: the device from power-on, for every hardware. *)
From Verif Require Import Base Num M_Libc M_Alignment S_Alignment P_Alignment P_AlignState M_Telescope M_Gnss M_NexStar S_NexStar P_NexStar M_Led M_Imu M_Main P_Sched P_Main P_Main2 P_Device S_Device P_Device2 M_Setup S_Setup P_Setup Properties_NexStar Properties_Device Properties_Setup.
From Coq Require Import Strings.String Permutation.
Open Scope Z_scope.
Notation length := List.length.

Section Power.
Context (N : Num) (T : Trig N) (pf : platform) (oor : conv_policy) (lc : libc N).
Context (qsort : list (vpair N) -> list (vpair N)) (m9 : res (F N)) (junk : option (F N * F N)).
Context (ftext : nat -> F N -> list Z) (left_first : bool).
Notation dev := (dev N). Notation event := (event N).
Notation power_on := (power_on N T pf oor lc qsort m9 junk ftext left_first).
Notation boot := (boot N).

Lemma power_on_history h evs : power_on h evs = M_Main.history N T pf oor lc qsort m9 junk ftext left_first (config_of (flags_after shipped h)) boot evs.
Proof.
  unfold M_Setup.power_on, flags_after. destruct (setup_shape shipped h) as (i & b1 & b2 & x & _ & _ & _ & _ & _ & E). rewrite E. reflexivity.
Qed.

(** ** C115 *)
(** Which services the device can use after start-up. *)
Definition usable (h : hardware) (s : service) : Prop :=
  match s with
  | TcpService | LocalBroker => found_in_time (h_connected h) \/ h_softAP h = true
  | RemoteMqtt => found_in_time (h_connected h)
  | BluetoothService => h_bluetooth h = true
  | LedService => True
  end.
Theorem C115_only_usable_services : forall h evs d o, power_on h evs = Ok (d, o) -> Forall (arrives N (flags_after shipped h)) evs ->
  Forall (fun x => usable h (service_of x)) o.
Proof.
  intros h evs d o E Ha. rewrite power_on_history in E.
  destruct (C112_network_mode h) as [Hc Hap]. destruct (C113_services shipped h) as (_ & Hbr & _ & Hmq & _ & _ & _ & Hbt & _).
  cbv zeta in *. set (f := flags_after shipped h) in *. cbn [shipped ENABLE_BROKER ENABLE_MQTT ENABLE_BLUETOOTH andb] in *. rewrite andb_true_r in *.
  assert (Hnet : f_client f || f_ap f = true -> found_in_time (h_connected h) \/ h_softAP h = true).
  { intros H. apply orb_true_iff in H. destruct H as [H|H]; [left; apply Hc, H|right]. rewrite Hap in H. apply andb_true_iff in H. apply H. }
  apply Forall_forall. intros x Hx.
  destruct (history_may N T pf oor lc qsort m9 junk ftext left_first (config_of f) evs boot d o E ltac:(split; reflexivity) ltac:(left; reflexivity) x Hx) as (ev & Hev & M).
  unfold may, usable, config_of in *. cbn [c_wifi c_mqtt c_broker] in M. destruct (service_of x).
  - apply Hnet. tauto.
  - destruct ev as [e|req]; [discriminate|]. rewrite Forall_forall in Ha. specialize (Ha _ Hev). cbn in Ha. congruence.
  - apply Hc. congruence.
  - apply Hnet. congruence.
  - exact I.
Qed.

(** ** C116: without the orientation sensor nothing reports a position: on MQTT and the broker only GNSS data and
    the confirmation of a reset appear, and no 24-byte message is sent to the client. *)
Theorem C116_no_sensor_no_position : forall h evs d o, h_i2c h && h_imu h = false -> power_on h evs = Ok (d, o) ->
  Forall (fun x => match x with
    | MqttOut t _ | BrokerOut t _ => t = "home/appliance/telescope/control"%string \/ t = "home/appliance/telescope/gnss"%string
    | TcpOut bytes => (length bytes <= 18)%nat
    | _ => True
    end) o.
Proof.
  intros h evs d o Hs E. rewrite power_on_history in E.
  destruct (C113_services shipped h) as (_ & _ & _ & _ & _ & Hse & _). cbv zeta in Hse. cbn [shipped ENABLE_ORIENTATION andb] in Hse.
  eapply history_no_sensor in E; [exact E|unfold config_of; cbn [c_sensor]; congruence|split; reflexivity].
Qed.

(** ** C117: with the remote server out of reach the alignment is never reset.  Whatever is published on the
    control topic, the alignment is the result of the synchronisations alone. *)
Theorem C117_no_reset_without_server : forall h evs d o, ~ found_in_time (h_connected h) -> power_on h evs = Ok (d, o) ->
  exists cs, commands N T pf oor lc qsort m9 junk ftext left_first (config_of (flags_after shipped h)) boot evs cs /\
    ~ In Reset cs /\ run N qsort m9 junk (align_init N) (all_orders N T cs) = Ok (t_align (d_tel d)).
Proof.
  intros h evs d o Hf E. rewrite power_on_history in E.
  destruct (C112_network_mode h) as [Hc _]. destruct (C113_services shipped h) as (_ & _ & _ & Hmq & _). cbv zeta in *.
  assert (Hm : c_mqtt (config_of (flags_after shipped h)) = false).
  { unfold config_of. cbn [c_mqtt]. rewrite Hmq. destruct (f_client (flags_after shipped h)); [exfalso; apply Hf, Hc; reflexivity|reflexivity]. }
  destruct (history_run N T pf oor lc qsort m9 junk ftext left_first _ evs boot d o E ltac:(split; reflexivity)) as (cs & Hcs & R).
  exists cs. split; [exact Hcs|]. split; [|exact R].
  clear R E. induction Hcs as [|d0 ev d' o' evs c cs Es Hev Hcs IH]; [intros []|].
  intros Hin. apply in_app_or in Hin. destruct Hin as [Hin|Hin]; [|exact (IH Hin)].
  destruct ev as [e|req]; cbn [commands_of] in Hev.
  - unfold commands_of in Hev. destruct (the_task N d0 e); try (subst c; destruct Hin).
    destruct Hev as (s & -> & Hev). unfold resets in Hin. rewrite Hm in Hin. cbn [andb] in Hin. rewrite app_nil_r in Hin.
    destruct (has_client d0 && e_up_read e && (0 <? received N e)); [|subst s; destruct Hin].
    destruct Hev as [(r & dc & _ & ->)|[_ ->]]; [destruct Hin as [Hin|[]]; discriminate|destruct Hin].
  - destruct Hev as [(_ & r & dc & _ & ->)|[_ ->]]; [destruct Hin as [Hin|[]]; discriminate|destruct Hin].
Qed.

(** Hence a reset message published while the device is an access point (it then runs its own broker, to which the
    message goes) has no effect. *)
Definition access_point : hardware := Hardware (fun _ => false) true true 0 true true true.
Theorem C117_reset_as_access_point_refuted : forall x j, m9 = Ok x -> junk = Some j -> permuting N qsort ->
  f_ap (flags_after shipped access_point) = true /\ times (Broker 1883) (acts_of shipped access_point) = 1%nat /\
  exists d o, power_on access_point (Bluetooth (str "s00000000,00000000") :: messages_at N 101000 [("home/appliance/telescope/control"%string, [49])]) = Ok (d, o) /\
    numVertices (t_align (d_tel d)) = 1.
Proof.
  intros x j Hm Hj Hq. split; [reflexivity|]. split; [reflexivity|]. rewrite power_on_history.
  set (cfg := config_of (flags_after shipped access_point)).
  set (req := str "s00000000,00000000").
  destruct (add_point N T qsort x j (d_tel boot) (angle_of N 0) (if flt N (fZ N 270) (angle_of N 0) then fsub N (angle_of N 0) (fZ N 360) else angle_of N 0) (g_latitude (d_gnss boot)) (lst_of N (d_gnss boot)) Hq) as (t' & Et & Wt & _ & Kt & Nt).
  { apply WF_init. } { cbn. lia. }
  rewrite <- Hm, <- Hj in Et.
  set (tel := Tele (t_align t') (t_orient t') true). set (tx1 := [35; 0] ++ repeat 0 254).
  assert (E0 : M_Main.step N T pf oor lc qsort m9 junk ftext left_first cfg boot (Bluetooth req) = Ok (set_nexstar N (set_tel N (set_tx N boot tx1) tel) true, [BtOut [35]])).
  { cbn [M_Main.step]. unfold onBluetoothData. pose proof (handle_act N T pf oor qsort m9 junk (d_tel boot) (d_gnss boot) req [] (d_tx boot) 256) as H. rewrite app_nil_r in H. rewrite H.
    change (P_NexStar.act N (d_tel boot) (d_gnss boot) req) with ASync. cbn [perform]. unfold do_sync. unfold field. change (read_upto req 1 8) with (Ok (repeat 48 8)). change (read_upto req 10 8) with (Ok (repeat 48 8)).
    cbn [bind]. replace (fst (strtoul pf 16 (repeat 48 8))) with 0 by (unfold strtoul, ulong_mod; destruct (w64 pf); reflexivity). cbv zeta. rewrite Et. cbn [bind]. reflexivity. }
  set (d1 := set_nexstar N (set_tel N (set_tx N boot tx1) tel) true) in *.
  assert (R : ready (d_timers d1) 101000). { unfold ready. change (d_timers d1) with (Timers 0 0 0 0 0 0 0). cbn [k_filter k_25ms k_100ms]. lia. }
  set (e := env_at N (101000 + 2) (Some []) [("home/appliance/telescope/control"%string, [49])] [] []).
  destruct (cycle100 N T pf oor lc qsort m9 junk ftext left_first cfg d1 101000 e R eq_refl (imu_ok_init N)) as (i & p & o & Oi & Ol & E).
  set (D := d_after_read N left_first (set_imu N (set_timers N d1 (after3 (d_timers d1) 101000)) i) e p) in E.
  assert (Ec : tcp_part N T pf oor qsort m9 junk D e = Ok (D, [])) by reflexivity.
  rewrite Ec in E. cbn [bind] in E. unfold mqtt_part in E. change (c_mqtt cfg) with false in E. cbn [bind] in E. 
  change (conn_part N cfg (set_led N D (led_for N D e)) e) with (set_led N D (led_for N D e), @nil out) in E.
  eexists _, _. split.
  { cbn [M_Main.history]. rewrite E0. cbn [bind]. unfold messages_at. fold e. rewrite E. cbn [bind]. reflexivity. }
  exact Nt.
Qed.
End Power.
Print Assumptions C115_only_usable_services.
Print Assumptions C116_no_sensor_no_position.
Print Assumptions C117_no_reset_without_server.
Print Assumptions C117_reset_as_access_point_refuted.
Example C116_nonvacuous : h_i2c (Hardware (fun _ => true) true true 0 true false true) && h_imu (Hardware (fun _ => true) true true 0 true false true) = false /\
  f_client (flags_after shipped (Hardware (fun _ => true) true true 0 true false true)) = true.
Proof. split; reflexivity. Qed.
Example C117_nonvacuous : ~ found_in_time (h_connected access_point).
Proof. intros [(k & _ & _ & H & _)|[_ H]]; discriminate. Qed.

(** ** C118: Wi-Fi after start-up *)
(** In client mode every loss of the connection starts one new attempt; connection events start none. *)
Theorem C118_client_reconnects : forall h es, f_client (flags_after shipped h) = true ->
  let a := wifi_events (Nat.ltb 0 (times WifiHandlers (acts_of shipped h))) es in
  times WifiBegin a = count_occ (fun x y : wifi_event => ltac:(decide equality)) es Disconnected /\ times WifiDisconnect a = times WifiBegin a /\ times SoftAP a = 0%nat.
Proof.
  intros h es Hc. destruct (C113_services shipped h) as (_ & _ & _ & _ & _ & _ & _ & _ & _ & Hw & _). cbv zeta in *. rewrite Hw, Hc. cbn [once_if Nat.ltb Nat.leb wifi_events].
  induction es as [|[| |] es IH]; [repeat split|..]; cbn [flat_map on_wifi]; rewrite ?times_app; destruct IH as (I1 & I2 & I3).
  - cbn [count_occ]. rewrite I1, I3. rewrite <- I1, <- I2. unfold times. cbn [count_occ]. repeat match goal with |- context[if ?b then _ else _] => destruct b; try congruence end. auto.
  - exact (conj I1 (conj I2 I3)).
  - exact (conj I1 (conj I2 I3)).
Qed.
Print Assumptions C118_client_reconnects.
(** ** C119: as an access point the device never tries the configured network again. *)
Theorem C119_access_point_stays_refuted : forall h es, f_client (flags_after shipped h) = false ->
  wifi_events (Nat.ltb 0 (times WifiHandlers (acts_of shipped h))) es = [].
Proof.
  intros h es Hc. destruct (C113_services shipped h) as (_ & _ & _ & _ & _ & _ & _ & _ & _ & Hw & _). cbv zeta in *. rewrite Hw, Hc. reflexivity.
Qed.
Print Assumptions C119_access_point_stays_refuted.
Example C115_nonvacuous : Forall (arrives NumR (flags_after shipped access_point)) [Bluetooth (str "Ka"); Bluetooth (str "s00000000,00000000")].
Proof. repeat constructor. Qed.
