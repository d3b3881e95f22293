(** C112, C113: start-up. *)
From Verif Require Import Base Num M_Libc M_Alignment S_Alignment P_Alignment P_AlignState M_Telescope M_Gnss M_NexStar S_NexStar P_NexStar M_Led M_Imu M_Main P_Sched P_Main P_Main2 P_Device S_Device P_Device2 M_Setup S_Setup P_Setup Properties_Device.
From Coq Require Import Strings.String Permutation.
Open Scope Z_scope.
Notation length := List.length.

Definition flags_after (w : switches) (h : hardware) : flags := fst (fst (setup w h)).
Definition acts_of (w : switches) (h : hardware) : list act := snd (fst (setup w h)).

Lemma times_app a l m : times a (l ++ m) = (times a l + times a m)%nat.
Proof. apply count_occ_app. Qed.
Lemma times_repeat a b n : times a (repeat b n) = if act_eq_dec b a then n else 0%nat.
Proof.
  induction n as [|n IH]; [destruct (act_eq_dec b a); reflexivity|]. cbn [repeat]. unfold times in *. cbn [count_occ].
  destruct (act_eq_dec b a); [rewrite IH; reflexivity|exact IH].
Qed.
Lemma waited_app l m : waited (l ++ m) = waited l + waited m.
Proof. induction l as [|x l IH]; [reflexivity|]. cbn [app waited fold_right] in *. destruct x; fold (waited (l ++ m)); fold (waited l); rewrite IH; lia. Qed.
Lemma waited_repeat n : waited (repeat (Delay 1000) n) = 1000 * Z.of_nat n.
Proof. induction n as [|n IH]; [reflexivity|]. change (repeat (Delay 1000) (S n)) with (Delay 1000 :: repeat (Delay 1000) n). cbn [waited fold_right] in *. fold (waited (repeat (Delay 1000) n)). rewrite IH. lia. Qed.
Lemma waited_files n : waited (repeat ListFile n) = 0.
Proof. induction n as [|n IH]; [reflexivity|exact IH]. Qed.

(** ** C112 *)
(** The shipped firmware: client of the configured network if that was found in time, otherwise an access point
    if that can be set up; never both. *)
Theorem C112_network_mode : forall h, let f := flags_after shipped h in
  (f_client f = true <-> found_in_time (h_connected h)) /\
  f_ap f = negb (f_client f) && h_softAP h.
Proof.
  intros h. unfold flags_after, setup, setup_wifi. cbn [shipped ENABLE_WIFI WIFIMODE_AUTO WIFIMODE_FORCE_AP andb negb orb].
  pose proof (found_iff h) as Hf. destruct (wait_wifi h 0 5) as [k a].
  destruct (h_connected h k) eqn:Ek; cbn [f_client set_client_mode negb andb].
  - assert (E : f_client (stage (set_client_mode (stage (stage (stage flags0))))) = true) by reflexivity.
    unfold setup_files, setup_sensor, setup_services, setup_others. cbn [shipped ENABLE_ORIENTATION ENABLE_BROKER ENABLE_MQTT ENABLE_BLUETOOTH].
    destruct (h_spiffs h), (h_i2c h), (h_imu h), (h_bluetooth h); cbn; (split; [tauto|reflexivity]).
  - unfold setup_files, setup_sensor, setup_services, setup_others. cbn [shipped ENABLE_ORIENTATION ENABLE_BROKER ENABLE_MQTT ENABLE_BLUETOOTH].
    destruct (h_softAP h), (h_spiffs h), (h_i2c h), (h_imu h), (h_bluetooth h); cbn; (split; [rewrite Hf; split; discriminate|reflexivity]).
Qed.
Print Assumptions C112_network_mode.
(** If a connection lasts once it is there: client mode exactly if it is there after five seconds. *)
Theorem C112_lasting_network : forall h, lasting (h_connected h) ->
  (f_client (flags_after shipped h) = true <-> h_connected h 6%nat = true).
Proof.
  intros h L. destruct (C112_network_mode h) as [H _]. rewrite H. clear H. unfold found_in_time.
  assert (M : forall n k, h_connected h k = true -> h_connected h (n + k)%nat = true) by (induction n as [|n IH]; intros k Hk; [exact Hk|apply L, IH, Hk]).
  split.
  - intros [(k & Hk & _ & Hc & _)|[_ H]]; [|exact H]. replace 6%nat with ((6 - k) + k)%nat by lia. apply M, Hc.
  - intros H6. destruct (h_connected h 5) eqn:E5; [|right; split; [|exact H6]].
    + left. assert (X : forall n, (n <= 5)%nat -> h_connected h n = true -> exists k, (k <= 5)%nat /\ (forall j, (j < k)%nat -> h_connected h j = false) /\ h_connected h k = true /\ h_connected h (S k) = true).
      { induction n as [|n IH]; intros Hn Hc.
        - exists 0%nat. split; [lia|]. split; [lia|]. split; [exact Hc|apply L, Hc].
        - destruct (h_connected h n) eqn:En; [apply IH; [lia|reflexivity]|]. exists (S n). split; [lia|]. split; [|split; [exact Hc|apply L, Hc]].
          intros j Hj. destruct (h_connected h j) eqn:Ej; [|reflexivity]. exfalso. assert (h_connected h n = true); [|congruence].
          replace n with ((n - j) + j)%nat by lia. apply M, Ej. }
      exact (X 5%nat (le_n _) E5).
    + intros j Hj. destruct (h_connected h j) eqn:Ej; [|reflexivity]. exfalso. assert (h_connected h 5 = true); [|congruence].
      replace 5%nat with ((5 - j) + j)%nat by lia. apply M, Ej.
Qed.
Print Assumptions C112_lasting_network.
Example C112_nonvacuous : lasting (fun k => Nat.leb 3 k) /\ f_client (flags_after shipped (Hardware (fun k => Nat.leb 3 k) true true 2 true true true)) = true /\
  f_ap (flags_after shipped (Hardware (fun _ => false) true true 2 true true true)) = true.
Proof. split; [|split; reflexivity]. intros k H. apply Nat.leb_le in H. apply Nat.leb_le. lia. Qed.

(** ** C113: what is set up, for every setting of the compile-time switches *)
Ltac fields := cbn [andb orb negb fst snd app f_client f_ap f_files f_sensor f_mqtt f_broker f_bluetooth f_stage set_ap_mode set_files set_sensor set_mqtt set_broker set_bluetooth set_client_mode stage flags0 once_if].
Lemma wifi_shape w h f : f_client f = false -> f_ap f = false -> exists i b1 b2 x, (i <= 5)%nat /\ (b1 = ENABLE_WIFI w && WIFIMODE_AUTO w && negb (WIFIMODE_FORCE_AP w)) /\ (forall j, (j < i)%nat -> h_connected h j = false) /\ (i = 5%nat \/ h_connected h i = true) /\
  setup_wifi w h f = (Flags (b1 && x) (b2 && h_softAP h) (f_files f) (f_sensor f) (f_mqtt f) (f_broker f) (f_bluetooth f) (f_stage f + Z.b2z (ENABLE_WIFI w)),
    (if b1 then WifiBegin :: repeat (Delay 1000) i ++ [if x then WifiHandlers else WifiDisconnect] else []) ++ (if b2 then [SoftAP] else [])) /\
  (b1 && x && b2 = false).
Proof.
  intros Hc Ha. unfold setup_wifi. pose proof (wait_wifi_spec h 5 0) as W. destruct (wait_wifi h 0 5) as [k a]. destruct W as (i & Hi & -> & Hf & Ho & ->). cbn [Nat.add] in *. set (k := S i).
  destruct f as [cl ap fi se mq br bt st]. cbn [f_client f_ap] in *. subst. exists i.
  destruct (ENABLE_WIFI w). 2:{ exists false, false, false. split; [exact Hi|]. split; [reflexivity|]. split; [exact Hf|]. split; [exact Ho|]. cbn. rewrite Z.add_0_r. auto. }
  exists (WIFIMODE_AUTO w && negb (WIFIMODE_FORCE_AP w)), ((WIFIMODE_AUTO w && negb (WIFIMODE_AUTO w && negb (WIFIMODE_FORCE_AP w) && h_connected h k)) || WIFIMODE_FORCE_AP w), (h_connected h k).
  split; [exact Hi|]. split; [reflexivity|]. split; [exact Hf|]. split; [exact Ho|]. destruct (WIFIMODE_AUTO w), (WIFIMODE_FORCE_AP w), (h_connected h k), (h_softAP h); fields; rewrite ?app_nil_r; auto.
Qed.
Lemma wifi_acts (i : nat) (b1 b2 x : bool) (y : act) : times y ((if b1 then WifiBegin :: repeat (Delay 1000) i ++ [if x then WifiHandlers else WifiDisconnect] else []) ++ (if b2 then [SoftAP] else [])) =
  ((if b1 then (if act_eq_dec WifiBegin y then 1 else 0) + (if act_eq_dec (Delay 1000) y then i else 0) + (if act_eq_dec (if x then WifiHandlers else WifiDisconnect) y then 1 else 0) else 0)
   + (if b2 then if act_eq_dec SoftAP y then 1 else 0 else 0))%nat.
Proof.
  rewrite times_app. f_equal; [|destruct b2; reflexivity]. destruct b1; [|reflexivity].
  change (WifiBegin :: repeat (Delay 1000) i ++ [if x then WifiHandlers else WifiDisconnect]) with ([WifiBegin] ++ repeat (Delay 1000) i ++ [if x then WifiHandlers else WifiDisconnect]).
  rewrite !times_app, times_repeat. unfold times. cbn [count_occ]. lia.
Qed.
Lemma wifi_waited (i : nat) (b1 b2 x : bool) : waited ((if b1 then WifiBegin :: repeat (Delay 1000) i ++ [if x then WifiHandlers else WifiDisconnect] else []) ++ (if b2 then [SoftAP] else [])) = if b1 then 1000 * Z.of_nat i else 0.
Proof.
  rewrite waited_app. replace (waited (if b2 then [SoftAP] else [])) with 0 by (destruct b2; reflexivity). destruct b1; [|reflexivity].
  change (WifiBegin :: repeat (Delay 1000) i ++ [if x then WifiHandlers else WifiDisconnect]) with ([WifiBegin] ++ repeat (Delay 1000) i ++ [if x then WifiHandlers else WifiDisconnect]).
  rewrite !waited_app, waited_repeat. destruct x; cbn; lia.
Qed.
(** the rest of setup(), for the network mode found *)
Definition rest_acts (w : switches) (h : hardware) (net client : bool) : list act :=
  (Mount :: if h_spiffs h then repeat ListFile (h_files h) else []) ++
  (if ENABLE_ORIENTATION w then [SensorPower; Delay 500] ++ (if h_i2c h && h_imu h then [SensorCalibration] else []) else []) ++
  (if net then [Listen 10001] ++ (if ENABLE_BROKER w then [Broker 1883] else []) ++ (if ENABLE_MQTT w && client then [MqttServer 1883] else []) else []) ++
  (if ENABLE_BLUETOOTH w && h_bluetooth h then [BluetoothHandlers] else []) ++ (if ENABLE_GNSS w then [GnssSerial 9600] else []) ++ (if ENABLE_ROTATION w then [EncoderSpi] else []).
Lemma setup_shape w h : exists i b1 b2 x, (i <= 5)%nat /\ (b1 = ENABLE_WIFI w && WIFIMODE_AUTO w && negb (WIFIMODE_FORCE_AP w)) /\ (forall j, (j < i)%nat -> h_connected h j = false) /\ (i = 5%nat \/ h_connected h i = true) /\
  (b1 && x && b2 = false) /\
  let client := b1 && x in let ap := b2 && h_softAP h in let net := client || ap in
  setup w h = (Flags client ap (h_spiffs h) (ENABLE_ORIENTATION w && h_i2c h && h_imu h) (client && ENABLE_MQTT w) (net && ENABLE_BROKER w) (ENABLE_BLUETOOTH w && h_bluetooth h)
      (4 + Z.b2z (ENABLE_WIFI w) + Z.b2z (h_spiffs h) + (if ENABLE_ORIENTATION w then 1 + (if h_i2c h then 1 + Z.b2z (h_imu h) else 0) else 0) + (if net then 1 + Z.b2z (client && ENABLE_MQTT w) else 0)),
    [Led true; Delay 500] ++ ((if b1 then WifiBegin :: repeat (Delay 1000) i ++ [if x then WifiHandlers else WifiDisconnect] else []) ++ (if b2 then [SoftAP] else [])) ++ rest_acts w h net client, READY).
Proof.
  unfold setup. destruct (wifi_shape w h (stage (stage (stage flags0))) eq_refl eq_refl) as (i & b1 & b2 & x & Hi & Hb1 & Hf & Ho & E & Hx).
  exists i, b1, b2, x. split; [exact Hi|]. split; [exact Hb1|]. split; [exact Hf|]. split; [exact Ho|]. split; [exact Hx|]. cbv zeta. rewrite E. clear E.
  set (a1 := (if b1 then WifiBegin :: repeat (Delay 1000) i ++ [if x then WifiHandlers else WifiDisconnect] else []) ++ (if b2 then [SoftAP] else [])).
  change (f_stage (stage (stage (stage flags0)))) with 3. cbn [led_update].
  unfold setup_files, setup_sensor, setup_services, setup_others, rest_acts.
  assert (T : forall (p q : flags * list act * led_mode), fst (fst p) = fst (fst q) -> snd (fst p) = snd (fst q) -> snd p = snd q -> p = q) by (intros [[? ?] ?] [[? ?] ?]; cbn; congruence).
  generalize (b1 && x) as client. generalize (b2 && h_softAP h) as ap. generalize (ENABLE_WIFI w) as ew. clearbody a1. clear - T. intros ew ap client.
  destruct (h_spiffs h), (ENABLE_ORIENTATION w), (h_i2c h), (h_imu h), client; fields; 
  destruct ap, (ENABLE_BROKER w); fields; destruct (ENABLE_MQTT w); fields; destruct (ENABLE_BLUETOOTH w); fields; destruct (h_bluetooth h); fields;
  (apply T; [fields; cbv beta iota delta [set_ap_mode set_files set_sensor set_mqtt set_broker set_bluetooth set_client_mode stage f_client f_ap f_files f_sensor f_mqtt f_broker f_bluetooth f_stage]; f_equal; destruct ew; cbn [Z.b2z]; lia|fields; rewrite ?app_nil_r, <- ?app_assoc; reflexivity|reflexivity]).
Qed.
Ltac fin := simpl; repeat match goal with |- context[if ?b then _ else _] => destruct b end; reflexivity.
Theorem C113_services : forall w h, let f := flags_after w h in let a := acts_of w h in let net := f_client f || f_ap f in
  times (Listen 10001) a = once_if net /\
  f_broker f = net && ENABLE_BROKER w /\ times (Broker 1883) a = once_if (f_broker f) /\
  f_mqtt f = f_client f && ENABLE_MQTT w /\ times (MqttServer 1883) a = once_if (f_mqtt f) /\
  f_sensor f = ENABLE_ORIENTATION w && h_i2c h && h_imu h /\ times SensorCalibration a = once_if (f_sensor f) /\
  f_bluetooth f = ENABLE_BLUETOOTH w && h_bluetooth h /\ times BluetoothHandlers a = once_if (f_bluetooth f) /\
  times WifiHandlers a = once_if (f_client f) /\
  f_files f = h_spiffs h /\ times ListFile a = (if f_files f then h_files h else 0%nat) /\
  (f_client f = true -> f_ap f = true -> False).
Proof.
  intros w h. unfold flags_after, acts_of. destruct (setup_shape w h) as (i & b1 & b2 & x & Hi & Hb1 & Hf & Ho & Hx & E). rewrite E. clear E.
  cbn [fst snd f_client f_ap f_files f_sensor f_mqtt f_broker f_bluetooth].
  set (client := b1 && x). set (ap := b2 && h_softAP h). set (net := client || ap).
  assert (P : forall y z, z <> y -> times y [z] = 0%nat) by (intros y z Hz; unfold times; cbn [count_occ]; destruct (act_eq_dec z y); congruence).
  assert (P1 : forall y, times y [y] = 1%nat) by (intros y; unfold times; cbn [count_occ]; destruct (act_eq_dec y y); congruence).
  assert (W : forall y, times y ((if b1 then WifiBegin :: repeat (Delay 1000) i ++ [if x then WifiHandlers else WifiDisconnect] else []) ++ (if b2 then [SoftAP] else [])) <> 0%nat -> In y [WifiBegin; WifiHandlers; WifiDisconnect; SoftAP; Delay 1000]).
  { intros y. rewrite wifi_acts. simpl In. destruct b1, b2, x; intros H; repeat match type of H with context[if ?b then _ else _] => destruct b; [auto 10|] end; cbn in H; lia. }
  assert (W0 : forall y, ~ In y [WifiBegin; WifiHandlers; WifiDisconnect; SoftAP; Delay 1000] -> times y ((if b1 then WifiBegin :: repeat (Delay 1000) i ++ [if x then WifiHandlers else WifiDisconnect] else []) ++ (if b2 then [SoftAP] else [])) = 0%nat).
  { intros y Hy. destruct (Nat.eq_dec (times y ((if b1 then WifiBegin :: repeat (Delay 1000) i ++ [if x then WifiHandlers else WifiDisconnect] else []) ++ (if b2 then [SoftAP] else []))) 0) as [e|e]; [exact e|]. destruct (Hy (W y e)). }
  assert (C : forall y, times y [Led true; Delay 500] = ((if act_eq_dec (Led true) y then 1 else 0) + (if act_eq_dec (Delay 500) y then 1 else 0))%nat).
  { intros y. unfold times. cbn [count_occ]. destruct (act_eq_dec (Led true) y), (act_eq_dec (Delay 500) y); reflexivity. }
  assert (R : forall y, times y (rest_acts w h net client) = 
    (times y [Mount] + (if h_spiffs h then times y (repeat ListFile (h_files h)) else 0) +
     (if ENABLE_ORIENTATION w then times y [SensorPower; Delay 500] + (if h_i2c h && h_imu h then times y [SensorCalibration] else 0) else 0) +
     (if net then times y [Listen 10001] + (if ENABLE_BROKER w then times y [Broker 1883] else 0) + (if ENABLE_MQTT w && client then times y [MqttServer 1883] else 0) else 0) +
     (if ENABLE_BLUETOOTH w && h_bluetooth h then times y [BluetoothHandlers] else 0) + (if ENABLE_GNSS w then times y [GnssSerial 9600] else 0) + (if ENABLE_ROTATION w then times y [EncoderSpi] else 0))%nat).
  { intros y. unfold rest_acts. change (Mount :: ?l) with ([Mount] ++ l). rewrite !times_app.
    destruct (h_spiffs h), (ENABLE_ORIENTATION w), (h_i2c h && h_imu h), net, (ENABLE_BROKER w), (ENABLE_MQTT w && client), (ENABLE_BLUETOOTH w && h_bluetooth h), (ENABLE_GNSS w), (ENABLE_ROTATION w); rewrite ?times_app; change (times y []) with 0%nat; lia. }
  assert (S2 : forall y, y <> SensorPower -> y <> Delay 500 -> times y [SensorPower; Delay 500] = 0%nat).
  { intros y H1 H2. unfold times. cbn [count_occ]. destruct (act_eq_dec SensorPower y), (act_eq_dec (Delay 500) y); congruence. }
  assert (A : forall y, ~ In y [WifiBegin; WifiHandlers; WifiDisconnect; SoftAP; Delay 1000; Led true; Delay 500] -> 
     times y ([Led true; Delay 500] ++ ((if b1 then WifiBegin :: repeat (Delay 1000) i ++ [if x then WifiHandlers else WifiDisconnect] else []) ++ (if b2 then [SoftAP] else [])) ++ rest_acts w h net client) = times y (rest_acts w h net client)).
  { intros y Hy. simpl In in Hy. rewrite times_app, C, times_app, W0 by (simpl In; tauto). destruct (act_eq_dec (Led true) y), (act_eq_dec (Delay 500) y); try tauto; reflexivity. }
  assert (NI : forall y l, (if in_dec act_eq_dec y l then false else true) = true -> ~ In y l) by (intros y l; destruct (in_dec act_eq_dec y l); [discriminate|auto]).
  repeat match goal with |- _ /\ _ => split end; try reflexivity.
  all: try (rewrite A by (apply NI; reflexivity); rewrite R, times_repeat;
    cbn [times count_occ act_eq_dec]; unfold times; simpl count_occ; simpl act_eq_dec;
    repeat match goal with |- context[if ?b then ?n else 0%nat] => match n with O => replace (if b then n else 0%nat) with 0%nat by (destruct b; reflexivity) end end).
  - unfold once_if. destruct net, (ENABLE_ORIENTATION w), (h_i2c h && h_imu h), (ENABLE_BROKER w), (ENABLE_MQTT w && client); fin.
  - unfold once_if. destruct net, (ENABLE_ORIENTATION w), (h_i2c h && h_imu h), (ENABLE_BROKER w), (ENABLE_MQTT w && client); fin.
  - unfold once_if. subst net. clearbody client ap. destruct client, ap, (ENABLE_ORIENTATION w), (h_i2c h && h_imu h), (ENABLE_BROKER w), (ENABLE_MQTT w); fin.
  - unfold once_if. clearbody net client ap. destruct (ENABLE_ORIENTATION w), (h_i2c h), (h_imu h), net, (ENABLE_BROKER w), (ENABLE_MQTT w && client); fin.
  - unfold once_if. destruct net, (ENABLE_ORIENTATION w), (h_i2c h && h_imu h), (ENABLE_BROKER w), (ENABLE_MQTT w && client), (ENABLE_BLUETOOTH w && h_bluetooth h); fin.
  - rewrite times_app, C, times_app, R, wifi_acts. rewrite times_repeat. unfold times. simpl. subst client. clearbody net ap. destruct b1, b2, x; simpl;
    destruct (ENABLE_ORIENTATION w), (h_i2c h && h_imu h), net, (ENABLE_BROKER w), (ENABLE_MQTT w), (h_spiffs h), (ENABLE_BLUETOOTH w && h_bluetooth h), (ENABLE_GNSS w), (ENABLE_ROTATION w); reflexivity.
  - clearbody net client ap. destruct (h_spiffs h), (ENABLE_ORIENTATION w), (h_i2c h && h_imu h), net, (ENABLE_BROKER w), (ENABLE_MQTT w && client), (ENABLE_BLUETOOTH w && h_bluetooth h), (ENABLE_GNSS w), (ENABLE_ROTATION w); simpl; lia.
  - subst client ap. destruct b1, x, b2; cbn in *; intros; congruence.
Qed.
Print Assumptions C113_services.
(** the receiver's serial line and the encoder's bus, for every setting of the switches, and in the shipped firmware *)
Theorem C113_receiver_and_encoder : forall w h,
  times (GnssSerial 9600) (acts_of w h) = once_if (ENABLE_GNSS w) /\ times EncoderSpi (acts_of w h) = once_if (ENABLE_ROTATION w) /\
  times Mount (acts_of w h) = 1%nat /\ times SensorPower (acts_of w h) = once_if (ENABLE_ORIENTATION w).
Proof.
  intros w h. unfold acts_of. destruct (setup_shape w h) as (i & b1 & b2 & x & Hi & Hb1 & Hf & Ho & Hx & E). rewrite E. clear E. cbn [fst snd].
  set (client := b1 && x). generalize (client || b2 && h_softAP h). clearbody client. intros net.
  assert (A : forall y, ~ In y [WifiBegin; WifiHandlers; WifiDisconnect; SoftAP; Delay 1000; Led true; Delay 500] -> y <> ListFile ->
     times y ([Led true; Delay 500] ++ ((if b1 then WifiBegin :: repeat (Delay 1000) i ++ [if x then WifiHandlers else WifiDisconnect] else []) ++ (if b2 then [SoftAP] else [])) ++ rest_acts w h net client) =
     times y ([Mount] ++ (if ENABLE_ORIENTATION w then [SensorPower; Delay 500] ++ (if h_i2c h && h_imu h then [SensorCalibration] else []) else []) ++
  (if net then [Listen 10001] ++ (if ENABLE_BROKER w then [Broker 1883] else []) ++ (if ENABLE_MQTT w && client then [MqttServer 1883] else []) else []) ++
  (if ENABLE_BLUETOOTH w && h_bluetooth h then [BluetoothHandlers] else []) ++ (if ENABLE_GNSS w then [GnssSerial 9600] else []) ++ (if ENABLE_ROTATION w then [EncoderSpi] else []))).
  { intros y Hy Hl. simpl In in Hy. unfold rest_acts. change (Mount :: ?l) with ([Mount] ++ l). rewrite times_app, times_app, wifi_acts, !times_app.
    replace (times y (if h_spiffs h then repeat ListFile (h_files h) else [])) with 0%nat.
    2:{ destruct (h_spiffs h); [|reflexivity]. rewrite times_repeat. destruct (act_eq_dec ListFile y); [congruence|reflexivity]. }
    assert (Q : times y [Led true; Delay 500] = 0%nat).
    { unfold times. cbn [count_occ]. destruct (act_eq_dec (Led true) y); [tauto|]. destruct (act_eq_dec (Delay 500) y); [tauto|reflexivity]. }
    rewrite Q. replace (if b1 then _ else _) with 0%nat.
    2:{ destruct b1; [|reflexivity]. destruct (act_eq_dec WifiBegin y); [tauto|]. destruct (act_eq_dec (Delay 1000) y); [tauto|].
        destruct (act_eq_dec (if x then WifiHandlers else WifiDisconnect) y) as [e|]; [destruct x; tauto|reflexivity]. }
    replace (if b2 then _ else _) with 0%nat by (destruct b2; [destruct (act_eq_dec SoftAP y); tauto|reflexivity]). change (times y []) with 0%nat. lia. }
  assert (NI : forall y l, (if in_dec act_eq_dec y l then false else true) = true -> ~ In y l) by (intros y l; destruct (in_dec act_eq_dec y l); [discriminate|auto]).
  split; [|split; [|split]]; (rewrite A; [|apply NI; reflexivity|discriminate]);
    destruct (ENABLE_ORIENTATION w), (h_i2c h && h_imu h), net, (ENABLE_BROKER w), (ENABLE_MQTT w && client), (ENABLE_BLUETOOTH w && h_bluetooth h), (ENABLE_GNSS w), (ENABLE_ROTATION w); reflexivity.
Qed.
(** the firmware as shipped starts the receiver's serial line and the encoder's bus, whatever the hardware answers *)
Theorem C113_shipped : forall h, times (GnssSerial 9600) (acts_of shipped h) = 1%nat /\ times EncoderSpi (acts_of shipped h) = 1%nat /\ times SensorPower (acts_of shipped h) = 1%nat.
Proof. intros h. destruct (C113_receiver_and_encoder shipped h) as (A & B & C & D). auto. Qed.
Print Assumptions C113_receiver_and_encoder. Print Assumptions C113_shipped.
Example C113_nonvacuous : flags_after shipped (Hardware (fun _ => true) true false 0 true false true) = Flags true false false false true true true 9.
Proof. reflexivity. Qed.

(** ** C114: start-up takes at most six seconds of waiting, shows the LED on first and ends in state READY,
    whatever is missing. *)
Theorem C114_start_up_ends : forall w h, let a := acts_of w h in
  500 <= waited a <= 6000 /\ hd_error a = Some (Led true) /\ snd (setup w h) = READY /\
  (forall k, (k <= 5)%nat -> ENABLE_WIFI w && WIFIMODE_AUTO w && negb (WIFIMODE_FORCE_AP w) = true ->
     (forall j, (j < k)%nat -> h_connected h j = false) -> h_connected h k = true ->
     waited a = 500 + 1000 * Z.of_nat k + (if ENABLE_ORIENTATION w then 500 else 0)).
Proof.
  intros w h. unfold acts_of. destruct (setup_shape w h) as (i & b1 & b2 & x & Hi & Hb1 & Hf & Ho & Hx & E). rewrite E.
  cbn [fst snd].
  assert (W : waited ([Led true; Delay 500] ++ ((if b1 then WifiBegin :: repeat (Delay 1000) i ++ [if x then WifiHandlers else WifiDisconnect] else []) ++ (if b2 then [SoftAP] else [])) ++ rest_acts w h (b1 && x || b2 && h_softAP h) (b1 && x))
      = 500 + (if b1 then 1000 * Z.of_nat i else 0) + (if ENABLE_ORIENTATION w then 500 else 0)).
  { rewrite waited_app, waited_app, wifi_waited. change (waited [Led true; Delay 500]) with 500. rewrite <- Z.add_assoc. f_equal. f_equal.
    unfold rest_acts. change (Mount :: ?l) with ([Mount] ++ l). rewrite !waited_app. change (waited [Mount]) with 0.
    replace (waited (if h_spiffs h then repeat ListFile (h_files h) else [])) with 0 by (destruct (h_spiffs h); [rewrite waited_files|]; reflexivity).
    destruct (ENABLE_ORIENTATION w), (h_i2c h && h_imu h), (b1 && x || b2 && h_softAP h), (ENABLE_BROKER w), (ENABLE_MQTT w && (b1 && x)), (ENABLE_BLUETOOTH w && h_bluetooth h), (ENABLE_GNSS w), (ENABLE_ROTATION w); reflexivity. }
  rewrite W. split; [destruct b1, (ENABLE_ORIENTATION w); lia|]. split; [reflexivity|]. split; [reflexivity|].
  intros k Hk Hw Hn Hc.
  assert (B : (if b1 then 1000 * Z.of_nat i else 0) = 1000 * Z.of_nat k); [|rewrite B; reflexivity].
  rewrite Hb1, Hw. do 2 f_equal. destruct (Nat.lt_trichotomy i k) as [L|[L|L]]; [|exact L|].
  - destruct Ho as [ -> |Ho]; [lia|]. rewrite (Hn i L) in Ho. discriminate.
  - rewrite (Hf k L) in Hc. discriminate.
Qed.
Print Assumptions C114_start_up_ends.
Example C114_nonvacuous : (forall j, (j < 3)%nat -> Nat.leb 3 j = false) /\ Nat.leb 3 3 = true.
Proof. split; [|reflexivity]. intros j Hj. apply Nat.leb_gt. exact Hj. Qed.
