(** Model of setup() (src/main.cpp:211-400), of the Wi-Fi event handlers (main.cpp:171-186) and of the device from
    power-on.  Not modelled: the console output, pin modes, SSID, password and address arguments. *)
From Verif Require Import Base Num M_Libc M_Alignment M_Telescope M_Gnss M_NexStar M_Led M_Imu M_Main.

(** main.cpp:43-54: the compile-time switches *)
Record switches := Switches {
  ENABLE_WIFI : bool; WIFIMODE_AUTO : bool; WIFIMODE_FORCE_AP : bool; ENABLE_MQTT : bool; ENABLE_GNSS : bool;
  ENABLE_ORIENTATION : bool; ENABLE_ROTATION : bool; ENABLE_BROKER : bool; ENABLE_BLUETOOTH : bool }.
Definition shipped : switches := Switches true true false true true true true true true.

(** What the hardware and the libraries answer during setup().  [h_connected k]: the k-th call of WiFi.status()
    returns WL_CONNECTED.  [h_files]: number of files openNextFile() delivers. *)
Record hardware := Hardware {
  h_connected : nat -> bool;
  h_softAP : bool; h_spiffs : bool; h_files : nat; h_i2c : bool; h_imu : bool; h_bluetooth : bool }.

(** What setup() and the event handlers do to the outside *)
Inductive act :=
| Led (level : bool)                      (* ledmanager.update() *)
| Delay (ms : Z)
| WifiBegin | WifiDisconnect              (* WiFi.begin(ssid, password), WiFi.disconnect() *)
| WifiHandlers                            (* WiFi.onEvent for the three events *)
| SoftAP                                  (* WiFi.softAP *)
| Mount | ListFile                        (* SPIFFS.begin(true); one line of the file list *)
| SensorPower | SensorCalibration         (* digitalWrite(IMU_PIN_VCC, HIGH); imu.setCalibration() *)
| Listen (port : Z)                       (* server.begin() *)
| Broker (port : Z)                       (* broker.init *)
| MqttServer (port : Z)                   (* mqttClient.setServer and setCallback *)
| BluetoothHandlers                       (* register_callback, onData *)
| GnssSerial (baud : Z)                   (* Serial2.begin *)
| EncoderSpi.                             (* AMT22.begin() *)

(** main.cpp:73-79, 91-92, 120 *)
Record flags := Flags {
  f_client : bool; f_ap : bool;                       (* wifiClientMode, wifiAccessPointMode *)
  f_files : bool; f_sensor : bool; f_mqtt : bool; f_broker : bool; f_bluetooth : bool;
  f_stage : Z }.                                      (* initStage *)
Definition flags0 : flags := Flags false false false false false false false 0.

Definition stage (f : flags) : flags := Flags (f_client f) (f_ap f) (f_files f) (f_sensor f) (f_mqtt f) (f_broker f) (f_bluetooth f) (f_stage f + 1).
Definition set_client_mode (f : flags) := Flags true (f_ap f) (f_files f) (f_sensor f) (f_mqtt f) (f_broker f) (f_bluetooth f) (f_stage f).
Definition set_ap_mode (f : flags) := Flags (f_client f) true (f_files f) (f_sensor f) (f_mqtt f) (f_broker f) (f_bluetooth f) (f_stage f).
Definition set_files (f : flags) := Flags (f_client f) (f_ap f) true (f_sensor f) (f_mqtt f) (f_broker f) (f_bluetooth f) (f_stage f).
Definition set_sensor (f : flags) := Flags (f_client f) (f_ap f) (f_files f) true (f_mqtt f) (f_broker f) (f_bluetooth f) (f_stage f).
Definition set_mqtt (f : flags) := Flags (f_client f) (f_ap f) (f_files f) (f_sensor f) true (f_broker f) (f_bluetooth f) (f_stage f).
Definition set_broker (f : flags) := Flags (f_client f) (f_ap f) (f_files f) (f_sensor f) (f_mqtt f) true (f_bluetooth f) (f_stage f).
Definition set_bluetooth (f : flags) := Flags (f_client f) (f_ap f) (f_files f) (f_sensor f) (f_mqtt f) (f_broker f) true (f_stage f).

Section Setup.
Context (w : switches) (h : hardware).

(** main.cpp:239-244: the waiting loop; [k]: how often WiFi.status() was called before.  Returns the count after
    the loop and what was done. *)
Fixpoint wait_wifi (k : nat) (retries : nat) : nat * list act :=
  if h_connected h k then (S k, [])
  else match retries with
       | O => (S k, [])
       | S retries => let '(k', a) := wait_wifi (S k) retries in (k', Delay 1000 :: a)
       end.

(** main.cpp:230-276 *)
Definition setup_wifi (f : flags) : flags * list act :=
  if ENABLE_WIFI w then
    let '(f, a1) :=
      if WIFIMODE_AUTO w && negb (WIFIMODE_FORCE_AP w) then
        let '(k, a) := wait_wifi 0 5 in
        if h_connected h k then (set_client_mode f, WifiBegin :: a ++ [WifiHandlers])
        else (f, WifiBegin :: a ++ [WifiDisconnect])
      else (f, []) in
    let '(f, a2) :=
      if (WIFIMODE_AUTO w && negb (f_client f)) || WIFIMODE_FORCE_AP w then
        (if h_softAP h then set_ap_mode f else f, [SoftAP])
      else (f, []) in
    (stage f, a1 ++ a2)
  else (f, []).

(** main.cpp:278-305 *)
Definition setup_files (f : flags) : flags * list act :=
  let f := if h_spiffs h then set_files f else f in
  let f := stage f in
  if f_files f then (stage f, Mount :: repeat ListFile (h_files h)) else (f, [Mount]).

(** main.cpp:307-335 *)
Definition setup_sensor (f : flags) : flags * list act :=
  if ENABLE_ORIENTATION w then
    let f := stage f in
    if h_i2c h then
      let f := stage f in
      if h_imu h then (set_sensor (stage f), [SensorPower; Delay 500; SensorCalibration])
      else (f, [SensorPower; Delay 500])
    else (f, [SensorPower; Delay 500])
  else (f, []).

(** main.cpp:337-360 *)
Definition setup_services (f : flags) : flags * list act :=
  if f_client f || f_ap f then
    let f := stage f in
    let '(f, a1) := if ENABLE_BROKER w then (set_broker f, [Broker 1883]) else (f, []) in
    let '(f, a2) := if ENABLE_MQTT w && f_client f then (set_mqtt (stage f), [MqttServer 1883]) else (f, []) in
    (f, Listen 10001 :: a1 ++ a2)
  else (f, []).

(** main.cpp:362-396 *)
Definition setup_others (f : flags) : flags * list act :=
  let '(f, a1) := if ENABLE_BLUETOOTH w then if h_bluetooth h then (set_bluetooth f, [BluetoothHandlers]) else (f, []) else (f, []) in
  (f, a1 ++ (if ENABLE_GNSS w then [GnssSerial 9600] else []) ++ (if ENABLE_ROTATION w then [EncoderSpi] else [])).

(** main.cpp:211-400.  ledmanager.setMode(ON); ledmanager.update() (time 0) at the start, READY at the end *)
Definition setup : flags * list act * led_mode :=
  let a0 := match led_update ON 0 with Some b => [Led b] | None => [] end ++ [Delay 500] in
  let f := stage (stage (stage flags0)) in
  let '(f, a1) := setup_wifi f in
  let '(f, a2) := setup_files f in
  let '(f, a3) := setup_sensor f in
  let '(f, a4) := setup_services f in
  let '(f, a5) := setup_others f in
  (f, a0 ++ a1 ++ a2 ++ a3 ++ a4 ++ a5, READY).
End Setup.

(** main.cpp:171-186 [onWifiDisconnect], [onWifiConnected], [onWifiIPAddress] (the last two only print) *)
Inductive wifi_event := Disconnected | Connected | GotIP.
Definition on_wifi (e : wifi_event) : list act := match e with Disconnected => [WifiDisconnect; WifiBegin] | _ => [] end.
(** the events that arrive after setup(); without registered handlers nothing is done *)
Definition wifi_events (registered : bool) (es : list wifi_event) : list act := if registered then flat_map on_wifi es else [].

(** The device from power-on: setup(), then loop() for ever, with Bluetooth requests in between if Bluetooth works *)
Definition config_of (f : flags) : config := Config (f_sensor f) (f_client f || f_ap f) (f_mqtt f) (f_broker f).
Section Power.
Context (N : Num) (T : Trig N) (pf : platform) (oor : conv_policy) (lc : libc N).
Context (qsort : list (vpair N) -> list (vpair N)) (m9 : res (F N)) (junk : option (F N * F N)).
Context (ftext : nat -> F N -> list Z) (left_first : bool).
(** requests arrive only if onBluetoothData was registered *)
Definition arrives (f : flags) (ev : event N) : Prop := match ev with Bluetooth _ => f_bluetooth f = true | Pass _ => True end.
Definition power_on (h : hardware) (evs : list (event N)) : res (dev N * list out) :=
  let '(f, _, led) := setup shipped h in
  history N T pf oor lc qsort m9 junk ftext left_first (config_of f) (set_led N (boot N) led) evs.
End Power.
