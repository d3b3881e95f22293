(** Model of src/main.cpp: the globals, the MQTT and Bluetooth callbacks and loop().
    setup() is in M_Setup; here only its result: which modules are available ([config]) and the initial state
    ([boot]).  Not modelled: the serial console output (except the out-of-bounds reads it makes in
    NexStar::handleRequest), sensorUpdateRate, counter2s (never read), the gyroscope. *)
From Verif Require Import Base Num M_Libc M_Checkbits M_Linalg M_Helper M_Alignment M_Telescope M_Stellarium M_Gnss M_NexStar M_Led M_Imu.
From Coq Require Import Strings.String.
Notation length := List.length.

(** ** printf pieces *)
Fixpoint dec_go (fuel : nat) (n : Z) (acc : list Z) : list Z :=
  match fuel with
  | O => acc
  | S fuel => let acc := (48 + n mod 10) :: acc in if n <? 10 then acc else dec_go fuel (n / 10) acc
  end.
(** %i and %0<w>u of an int *)
Definition itext (z : Z) : list Z := if z <? 0 then 45 :: dec_go 20 (- z) [] else dec_go 20 z [].
Definition utext (w : nat) (z : Z) : list Z := let d := dec_go 20 (u32 z) [] in repeat 48 (w - length d) ++ d.
Definition str (s : string) : list Z := bytes_of s.
(** snprintf((char * )(mem + len), sizeof(mem) - len, ...): beyond the end the size wraps around and nothing
    stops the write. *)
Definition snprintf_at (mem : list Z) (len : Z) (text : list Z) : res (Z * list Z) :=
  let size := Z.of_nat (length mem) - len in
  if size <? 0 then UB OobWrite
  else if size =? 0 then Ok (Z.of_nat (length text), mem)
  else do mem <- poke mem (Z.to_nat len) (firstn (Z.to_nat (size - 1)) text ++ [0]); Ok (Z.of_nat (length text), mem).

(** ** What leaves the device *)
Inductive out :=
| TcpOut (bytes : list Z)                     (* remoteClient.write *)
| BtOut (bytes : list Z)                      (* bluetooth.write *)
| MqttOut (topic : string) (payload : list Z) (* accepted by mqttClient.publish *)
| BrokerOut (topic : string) (payload : list Z)
| LedOut (level : bool)                       (* digitalWrite on the LED pin *)
| Accepted (client : Z) | Rejected (client : Z)
| MqttConnect.

(** PubSubClient 2.8 publish(topic, payload, n): refuses, without reading the payload, what does not fit its
    256-byte packet buffer (5 header bytes, 2 length bytes, topic). *)
Definition mqtt_publish (topic : string) (mem : list Z) (n : Z) : list out :=
  if 5 + 2 + Z.of_nat (String.length topic) + n <=? 256 then [MqttOut topic (firstn (Z.to_nat n) mem)] else [].
(** sMQTTBroker publish(topic, char* ): the C string that starts at the pointer. *)
Definition cstring (mem : list Z) : res (list Z) := match find_char 0 mem with Some _ => Ok (until_nul mem) | None => UB OobRead end.

Definition CONTROL_TOPIC : string := "home/appliance/telescope/control".

(** main.cpp:73-79 and 91-92: set once by setup() *)
Record config := Config {
  c_sensor : bool;   (* orientationSensorAvailable *)
  c_wifi : bool;     (* wifiClientMode || wifiAccessPointMode *)
  c_mqtt : bool;     (* mqttAvailable *)
  c_broker : bool }. (* localBrokerAvailable *)

Section Main.
Context (N : Num) (T : Trig N) (pf : platform) (oor : conv_policy) (lc : libc N).
Context (qsort : list (vpair N) -> list (vpair N)) (m9 : res (F N)) (junk : option (F N * F N)).
(** printf("%.<d>f", v) *)
Context (ftext : nat -> F N -> list Z).
(** which operand of | is evaluated first in (transfer(0) << 8) | transfer(0): unspecified in C++ *)
Context (left_first : bool).
Context (cfg : config).
Notation F := (F N).

(** main.cpp:122-128 *)
Record timers := Timers { k_filter : Z; k_25ms : Z; k_100ms : Z; k_500ms : Z; k_1s : Z; k_2s : Z; k_30s : Z }.
(** main.cpp:82-134, the globals loop() and the callbacks use *)
Record dev := Dev {
  d_timers : timers;
  d_tel : telescope N; d_gnss : gnss N; d_imu : imu N; d_led : led_mode;
  d_heading : F; d_pitch : F; d_temperature : F;
  d_nexstar : bool; d_gnssTimeout : Z; d_gnssAvailable : bool;
  d_client : option Z;                      (* remoteClient: which connection it holds *)
  d_tx : list Z; d_rx : list Z }.
(** after setup(): main.cpp:82-134, 398 *)
Definition boot : dev := Dev (Timers 0 0 0 0 0 0 0)
  (tele_init N (fZ N 0) (fZ N 0)) (gnss_init N (fZ N 48) (fZ N 11)) (imu_init N) READY
  (fZ N 180) (fZ N 0) (fZ N 0) false 0 false None (repeat 0 256) (repeat 0 256).

(** what one pass of loop() gets from the outside *)
Record env := Env {
  e_now : Z;                                (* micros() *)
  e_acc : F * F * F;                        (* accelerometer sample *)
  e_spi : Z * Z;                            (* bytes returned by the two SPI transfers, in time order *)
  e_up_read : bool; e_up_led : bool; e_up_accept : bool;   (* remoteClient.connected() at its three places *)
  e_tcp : option (list Z);                  (* remoteClient.read: bytes waiting, None: error (-1) *)
  e_msgs : list (string * list Z);          (* MQTT messages delivered by mqttClient.loop(): topic, payload *)
  e_pending : list Z;                       (* connections waiting at the server, oldest first *)
  e_serial : list Z;                        (* bytes waiting at Serial2 *)
  e_mqtt_up : bool;                         (* mqttClient.connected() *)
  e_temp : F }.

(** field updates *)
Definition set_timers (d : dev) k := Dev k (d_tel d) (d_gnss d) (d_imu d) (d_led d) (d_heading d) (d_pitch d) (d_temperature d) (d_nexstar d) (d_gnssTimeout d) (d_gnssAvailable d) (d_client d) (d_tx d) (d_rx d).
Definition set_tel (d : dev) t := Dev (d_timers d) t (d_gnss d) (d_imu d) (d_led d) (d_heading d) (d_pitch d) (d_temperature d) (d_nexstar d) (d_gnssTimeout d) (d_gnssAvailable d) (d_client d) (d_tx d) (d_rx d).
Definition set_imu (d : dev) i := Dev (d_timers d) (d_tel d) (d_gnss d) i (d_led d) (d_heading d) (d_pitch d) (d_temperature d) (d_nexstar d) (d_gnssTimeout d) (d_gnssAvailable d) (d_client d) (d_tx d) (d_rx d).
Definition set_led (d : dev) l := Dev (d_timers d) (d_tel d) (d_gnss d) (d_imu d) l (d_heading d) (d_pitch d) (d_temperature d) (d_nexstar d) (d_gnssTimeout d) (d_gnssAvailable d) (d_client d) (d_tx d) (d_rx d).
Definition set_attitude (d : dev) h p := Dev (d_timers d) (d_tel d) (d_gnss d) (d_imu d) (d_led d) h p (d_temperature d) (d_nexstar d) (d_gnssTimeout d) (d_gnssAvailable d) (d_client d) (d_tx d) (d_rx d).
Definition set_temperature (d : dev) v := Dev (d_timers d) (d_tel d) (d_gnss d) (d_imu d) (d_led d) (d_heading d) (d_pitch d) v (d_nexstar d) (d_gnssTimeout d) (d_gnssAvailable d) (d_client d) (d_tx d) (d_rx d).
Definition set_nexstar (d : dev) b := Dev (d_timers d) (d_tel d) (d_gnss d) (d_imu d) (d_led d) (d_heading d) (d_pitch d) (d_temperature d) b (d_gnssTimeout d) (d_gnssAvailable d) (d_client d) (d_tx d) (d_rx d).
Definition set_gnss (d : dev) g t a := Dev (d_timers d) (d_tel d) g (d_imu d) (d_led d) (d_heading d) (d_pitch d) (d_temperature d) (d_nexstar d) t a (d_client d) (d_tx d) (d_rx d).
Definition set_client (d : dev) c := Dev (d_timers d) (d_tel d) (d_gnss d) (d_imu d) (d_led d) (d_heading d) (d_pitch d) (d_temperature d) (d_nexstar d) (d_gnssTimeout d) (d_gnssAvailable d) c (d_tx d) (d_rx d).
Definition set_tx (d : dev) b := Dev (d_timers d) (d_tel d) (d_gnss d) (d_imu d) (d_led d) (d_heading d) (d_pitch d) (d_temperature d) (d_nexstar d) (d_gnssTimeout d) (d_gnssAvailable d) (d_client d) b (d_rx d).
Definition set_rx (d : dev) b := Dev (d_timers d) (d_tel d) (d_gnss d) (d_imu d) (d_led d) (d_heading d) (d_pitch d) (d_temperature d) (d_nexstar d) (d_gnssTimeout d) (d_gnssAvailable d) (d_client d) (d_tx d) b.

Notation handle d req len := (handleRequest N T pf oor qsort m9 junk (d_tel d) (d_gnss d) req len (d_tx d) 256).
Definition lst (d : dev) : F := getLocalSiderealTimeDegrees N (g_time (d_gnss d)) (g_longitude (d_gnss d)).

(** main.cpp:201-209 [onBluetoothData]: nexstar.handleRequest(buffer, size, txBuffer, sizeof(txBuffer)) *)
Definition onBluetoothData (d : dev) (req : list Z) : res (dev * list out) :=
  do '(n, tx, tel) <- handle d req (Z.of_nat (length req));
  let d := set_tel (set_tx d tx) tel in
  if 0 <? n then Ok (set_nexstar d true, [BtOut (firstn (Z.to_nat n) tx)]) else Ok (d, []).

(** main.cpp:138-169 [mqttCallback] *)
Definition mqttCallback (d : dev) (topic : string) (payload : list Z) : res (dev * list out) :=
  match payload with
  | [] => Ok (d, [])                                                             (* length < 1 *)
  | c :: _ =>
      match find_sub (str CONTROL_TOPIC) (str topic) with
      | None => Ok (d, [])
      | Some _ =>
          if c =? 49 then
            let t := d_tel d in
            let d := set_tel d (Tele (clearAll N (t_align t)) (t_orient t) (t_cal t)) in
            do tx <- wr (d_tx d) 0 48;
            Ok (set_tx d tx, mqtt_publish CONTROL_TOPIC tx 1)
          else Ok (d, [])
      end
  end.
(** mqttClient.loop(): one callback per delivered message *)
Fixpoint mqtt_loop (d : dev) (msgs : list (string * list Z)) : res (dev * list out) :=
  match msgs with
  | [] => Ok (d, [])
  | (topic, payload) :: msgs =>
      do '(d, o1) <- mqttCallback d topic payload;
      do '(d, o2) <- mqtt_loop d msgs;
      Ok (d, o1 ++ o2)
  end.

(** main.cpp:402-422 [checkForConnections].  server.available() takes the oldest waiting connection; the
    connection of a WiFiClient that is dropped or stopped is closed. *)
Definition checkForConnections (d : dev) (e : env) : dev * list out :=
  match e_pending e with
  | [] => (d, [])
  | c :: more =>
      if (match d_client d with Some _ => true | None => false end) && e_up_accept e then
        (d, Rejected c :: match more with [] => [] | c2 :: _ => [Rejected c2] end)
      else (set_client d (Some c), [Accepted c])
  end.

(** main.cpp:442-452 *)
Definition task_filter (d : dev) (e : env) : res (dev * list out) :=
  if c_sensor cfg then
    do i <- (let '(x, y, z) := e_acc e in accSample N (d_imu d) x y z);
    Ok (set_imu d i, [])
  else Ok (d, []).

(** main.cpp:455-461 *)
Definition task_25ms (d : dev) (e : env) : res (dev * list out) :=
  Ok (d, match led_update (d_led d) (e_now e) with Some b => [LedOut b] | None => [] end).

(** main.cpp:468-471: imu.getMeanAcc, imu.calibrate, pitch = atan2(x, y) * 180 / PI (float atan2 and product) *)
Definition measure_pitch (d : dev) : res F :=
  do a <- getMeanAcc N (d_imu d);
  let '(x, y, _) := calibrate_acc N a in
  Ok (f32 N (fdiv N (f32 N (fmul N (f32 N (tatan2 T x y)) (fZ N 180))) (tpi T))).
(** main.cpp:473-482.  uint16_t heading_raw; heading += 0.3f * ((float(raw & 0x3fff) * 360. / 16385.) - heading) *)
Definition heading_raw (e : env) : Z :=
  let '(b1, b2) := e_spi e in
  let '(hi, lo) := if left_first then (b1, b2) else (b2, b1) in
  Z.lor (Z.shiftl hi 8) lo mod 65536.
Definition HEADING_LOWPASS : F := f32 N (fq N 3 10).
Definition filter_heading (heading : F) (raw : Z) : F :=
  if verifyAmtCheckbits raw then
    let measured := fdiv N (fmul N (f32 N (fZ N (Z.land raw 0x3fff))) (fZ N 360)) (fZ N 16385) in
    f32 N (fadd N heading (fmul N HEADING_LOWPASS (fsub N measured heading)))
  else heading.

(** main.cpp:487-513: one packet from the connected client.  handleRequest always gets the whole buffer. *)
Definition serve_tcp (d : dev) (e : env) : res (dev * list out) :=
  let '(received, rx) :=
    match e_tcp e with
    | Some bytes => let b := firstn 256 bytes in (Z.of_nat (length b), b ++ skipn (length b) (d_rx d))
    | None => (u32 (-1), d_rx d)
    end in
  let d := set_rx d rx in
  if 0 <? received then
    do '(n, tx, tel) <- handle d rx 256;
    let d := set_tel (set_tx d tx) tel in
    if 0 <? n then Ok (set_nexstar d true, [TcpOut (firstn (Z.to_nat n) tx)])
    else
      do '(ok, o) <- unpackPosition N false rx received (Build_unpack_out (fZ N 0) (fZ N 0) 0);
      if ok : bool then
        do tel <- addReferencePoint N T qsort m9 junk (d_tel d) (o_ra o) (o_dec o) (g_latitude (d_gnss d)) (lst d);
        Ok (set_tel d tel, [])
      else Ok (d, [])
  else Ok (d, []).

Definition has_client (d : dev) : bool := match d_client d with Some _ => true | None => false end.
(** main.cpp:520-531 *)
Definition led_for (d : dev) (e : env) : led_mode :=
  if negb (g_valid (d_gnss d)) then BLINK_1HZ
  else if has_client d && e_up_led e then FLASH_2X_EVERY_5S
  else FLASH_1X_EVERY_5S.

(** main.cpp:464-552; broker.update() has no effect on the modelled state *)
Definition task_100ms (d : dev) (e : env) : res (dev * list out) :=
  do pitch <- measure_pitch d;
  let heading := filter_heading (d_heading d) (heading_raw e) in
  let d := set_attitude d heading pitch in
  let d := set_tel d (setOrientation N (d_tel d) (f32 N (fadd N heading (fZ N 0))) pitch) in
  do '(d, o1) <- (if has_client d && e_up_read e then serve_tcp d e else Ok (d, []));
  do '(d, o2) <- (if c_mqtt cfg then mqtt_loop d (e_msgs e) else Ok (d, []));
  let d := set_led d (led_for d e) in
  let '(d, o3) := if c_wifi cfg then checkForConnections d e else (d, []) in
  Ok (d, o1 ++ o2 ++ o3).

(** main.cpp:559-579 *)
Definition poll_gnss (d : dev) (e : env) : res dev :=
  let bytes := firstn 255 (e_serial e) in
  match bytes with
  | [] =>
      let t := if 0 <? d_gnssTimeout d then d_gnssTimeout d - 1 else d_gnssTimeout d in
      Ok (set_gnss d (d_gnss d) t (0 <? t))
  | _ =>
      let d := set_rx d (bytes ++ 0 :: skipn (S (length bytes)) (d_rx d)) in
      do '(n, g) <- fromBuffer N pf oor lc (d_gnss d) bytes;
      if 0 <? n then Ok (set_gnss d g 20 true) else Ok (set_gnss d g (d_gnssTimeout d) (d_gnssAvailable d))
  end.

(** the pair of calls "mqttClient.publish(topic, txBuffer, len); broker.publish(topic, (char * )txBuffer)" *)
Definition publish_tx (topic : string) (tx : list Z) (len : Z) : res (list out) :=
  do o2 <- (if c_broker cfg then do s <- cstring tx; Ok [BrokerOut topic s] else Ok []);
  Ok ((if c_mqtt cfg then mqtt_publish topic tx len else []) ++ o2).
(** len = snprintf(txBuffer, sizeof(txBuffer), ...) and the two publish calls *)
Definition publish_text (d : dev) (topic : string) (text : list Z) : res (dev * list out) :=
  do '(len, tx) <- snprintf (d_tx d) 256 text;
  do o <- publish_tx topic tx len;
  Ok (set_tx d tx, o).

(** main.cpp:657-669 / 671-682: "[" then "[x,y]," for each point, then "]" over the terminating NUL *)
Definition point_text (p : point N) : list Z := [91] ++ ftext 2 (px p) ++ [44] ++ ftext 2 (py p) ++ [93; 44].
Fixpoint append_points (tx : list Z) (len : Z) (ps : list (point N)) : res (Z * list Z) :=
  match ps with
  | [] => Ok (len, tx)
  | p :: ps => do '(n, tx) <- snprintf_at tx len (point_text p); append_points tx (len + n) ps
  end.
Definition publish_points (d : dev) (topic : string) (ps : list (point N)) : res (dev * list out) :=
  do tx <- wr (d_tx d) 0 91;
  do '(len, tx) <- append_points tx 1 ps;
  do tx <- wr tx (Z.to_nat len) 93;
  do o <- publish_tx topic tx (len + 1);
  Ok (set_tx d tx, o).

(** main.cpp:648-652 *)
Definition type_number (t : ttype) : Z := match t with NONE => 0 | POINT => 1 | LINE => 2 | TRIANGLE_OUT => 3 | TRIANGLE_IN => 4 end.
(** {"vertices":%i,"triangles":%i, "type": %i} *)
Definition alignment_text (a : align N) (ty : ttype) : list Z :=
  [123; 34] ++ str "vertices" ++ [34; 58] ++ itext (numVertices a) ++ [44; 34] ++ str "triangles" ++ [34; 58] ++ itext (numTriangles a)
  ++ [44; 32; 34] ++ str "type" ++ [34; 58; 32] ++ itext (type_number ty) ++ [125].
(** main.cpp:685-688 *)
Definition matrix_text (m : mat N) : list Z :=
  [91] ++ ftext 2 (m00 m) ++ [44; 32] ++ ftext 2 (m01 m) ++ [44; 32] ++ ftext 2 (m02 m) ++ [44; 32] ++
  ftext 2 (m10 m) ++ [44; 32] ++ ftext 2 (m11 m) ++ [44; 32] ++ ftext 2 (m12 m) ++ [44; 32] ++
  ftext 2 (m20 m) ++ [44; 32] ++ ftext 2 (m21 m) ++ [44; 32] ++ ftext 2 (m22 m) ++ [93].

(** main.cpp:588-596: position for Stellarium (desktop), time stamp 0 *)
Definition send_position (d : dev) (e : env) (q : equatorial N) : res (dev * list out) :=
  if has_client d && e_up_read e && d_gnssAvailable d && negb (d_nexstar d) then
    do '(n, tx) <- packPosition N oor (ra q) (dec q) 0 (d_tx d) 256;
    Ok (set_tx d tx, if n =? 24 then [TcpOut (firstn (Z.to_nat n) tx)] else [])
  else Ok (d, []).

(** consecutive statements that each produce output *)
Definition andthen (r : res (dev * list out)) (f : dev -> res (dev * list out)) : res (dev * list out) :=
  do '(d, o1) <- r; do '(d, o2) <- f d; Ok (d, o1 ++ o2).
Definition topic (s : string) : string := ("home/appliance/telescope/" ++ s)%string.

(** main.cpp:555-696 *)
Definition task_500ms (d : dev) (e : env) : res (dev * list out) :=
  do d <- poll_gnss d e;
  if c_sensor cfg then
    let l := lst d in
    do '(q, ty) <- calibratedEquatorial N T (d_tel d) (g_latitude (d_gnss d)) l;
    let h := equatorialToHorizontal N T (ra q) (dec q) (g_latitude (d_gnss d)) l in
    let verts := firstn (Z.to_nat (numVertices (t_align (d_tel d)))) (verts (t_align (d_tel d))) in
    andthen (send_position d e q) (fun d =>
    andthen (publish_text d (topic "alt") (ftext 3 (alt h))) (fun d =>
    andthen (publish_text d (topic "az") (ftext 3 (az h))) (fun d =>
    andthen (publish_text d (topic "ra") (ftext 3 (ra q))) (fun d =>
    andthen (publish_text d (topic "dec") (ftext 3 (dec q))) (fun d =>
    andthen (publish_text d (topic "lst") (ftext 3 (fdiv N l (fZ N 15)))) (fun d =>
    andthen (publish_text d (topic "pitch") (ftext 3 (d_pitch d))) (fun d =>
    andthen (publish_text d (topic "heading") (ftext 3 (d_heading d))) (fun d =>
    andthen (publish_text d (topic "temp") (ftext 1 (d_temperature d))) (fun d =>
    andthen (publish_text d (topic "alignment") (alignment_text (t_align (d_tel d)) ty)) (fun d =>
    andthen (publish_points d (topic "actual") (map (fun v => actual v) verts)) (fun d =>
    andthen (publish_points d (topic "reference") (map (fun v => reference v) verts)) (fun d =>
    do m <- getTransformationMatrix N (t_align (d_tel d)) (t_orient (d_tel d));
    publish_text d (topic "matrix") (matrix_text m)))))))))))))
  else Ok (d, []).

(** main.cpp:736-748; [key s] is the text "s": *)
Definition key (s : string) : list Z := 34 :: str s ++ [34; 58].
Definition gnss_text (g : gnss N) : list Z :=
  let t := g_time g in
  [123] ++ key "valid" ++ (if g_valid g then str "true" else str "false") ++ [44] ++
  key "lat" ++ ftext 3 (g_latitude g) ++ [44] ++ key "lng" ++ ftext 3 (g_longitude g) ++ [44] ++ key "alt" ++ ftext 0 (g_altitude g) ++ [44] ++
  key "date" ++ [34] ++ utext 4 (tm_year t) ++ [45] ++ utext 2 (tm_mon t) ++ [45] ++ utext 2 (tm_mday t) ++ [34; 44] ++
  key "time" ++ [34] ++ utext 2 (tm_hour t) ++ [58] ++ utext 2 (tm_min t) ++ [58] ++ utext 2 (tm_sec t) ++ [34; 44] ++
  key "satUse" ++ utext 0 (g_satUsed g) ++ [44] ++ key "satView" ++ utext 0 (g_satView g) ++ [125].

(** main.cpp:707-771; here the broker is served first *)
Definition task_2s (d : dev) (e : env) : res (dev * list out) :=
  do tx <- wr (d_tx d) 0 0; do tx <- wr tx 1 0;
  do rx <- wr (d_rx d) 0 1; do rx <- wr rx 1 2;
  let d := set_rx (set_tx d tx) rx in
  do '(d, o) <- (if d_gnssAvailable d then
      do '(len, tx) <- snprintf (d_tx d) 256 (gnss_text (d_gnss d));
      do o1 <- (if c_broker cfg then do s <- cstring tx; Ok [BrokerOut (topic "gnss") s] else Ok []);
      Ok (set_tx d tx, o1 ++ (if c_mqtt cfg then mqtt_publish (topic "gnss") tx len else []))
    else Ok (d, []));
  let o2 := if c_mqtt cfg && negb (e_mqtt_up e) then [MqttConnect] else [] in
  let d := if c_sensor cfg then set_temperature d (e_temp e) else d in
  Ok (d, o ++ o2).

(** ** loop(), main.cpp:438-789.  [task] tells which branch was taken (for the statements about scheduling). *)
Inductive task := Filter | Task25ms | Task100ms | Task500ms | Task1s | Task2s | Task30s | Idle.
(** (timestamp - timer) > period, in uint32_t *)
Definition due (now timer period : Z) : bool := period <? u32 (now - timer).
(** the uint32_t value of micros() *)
Definition select (k : timers) (now : Z) : task * timers :=
  if due now (k_filter k) 20000 then (Filter, Timers now (k_25ms k) (k_100ms k) (k_500ms k) (k_1s k) (k_2s k) (k_30s k))
  else if due now (k_25ms k) 25000 then (Task25ms, Timers (k_filter k) now (k_100ms k) (k_500ms k) (k_1s k) (k_2s k) (k_30s k))
  else if due now (k_100ms k) 100000 then (Task100ms, Timers (k_filter k) (k_25ms k) now (k_500ms k) (k_1s k) (k_2s k) (k_30s k))
  else if due now (k_500ms k) 500000 then (Task500ms, Timers (k_filter k) (k_25ms k) (k_100ms k) now (k_1s k) (k_2s k) (k_30s k))
  else if due now (k_1s k) 1000000 then (Task1s, Timers (k_filter k) (k_25ms k) (k_100ms k) (k_500ms k) now (k_2s k) (k_30s k))
  else if due now (k_2s k) 2000000 then (Task2s, Timers (k_filter k) (k_25ms k) (k_100ms k) (k_500ms k) (k_1s k) now (k_30s k))
  else if due now (k_30s k) 30000000 then (Task30s, Timers (k_filter k) (k_25ms k) (k_100ms k) (k_500ms k) (k_1s k) (k_2s k) now)
  else (Idle, k).
Definition run_task (t : task) (d : dev) (e : env) : res (dev * list out) :=
  match t with
  | Filter => task_filter d e
  | Task25ms => task_25ms d e
  | Task100ms => task_100ms d e
  | Task500ms => task_500ms d e
  | Task2s => task_2s d e
  | Task1s | Task30s | Idle => Ok (d, [])
  end.
Definition loop (d : dev) (e : env) : res (dev * list out) :=
  let '(t, k) := select (d_timers d) (e_now e) in run_task t (set_timers d k) e.

(** ** Histories: passes of loop() and Bluetooth requests, one after the other *)
Inductive event := Pass (e : env) | Bluetooth (request : list Z).
Definition step (d : dev) (ev : event) : res (dev * list out) :=
  match ev with Pass e => loop d e | Bluetooth req => onBluetoothData d req end.
Fixpoint history (d : dev) (evs : list event) : res (dev * list out) :=
  match evs with
  | [] => Ok (d, [])
  | ev :: evs => do '(d, o1) <- step d ev; do '(d, o2) <- history d evs; Ok (d, o1 ++ o2)
  end.
End Main.
Arguments d_timers {N}. Arguments d_tel {N}. Arguments d_gnss {N}. Arguments d_imu {N}. Arguments d_led {N}. Arguments d_heading {N}.
Arguments d_pitch {N}. Arguments d_temperature {N}. Arguments d_nexstar {N}. Arguments d_gnssTimeout {N}. Arguments d_gnssAvailable {N}.
Arguments d_client {N}. Arguments d_tx {N}. Arguments d_rx {N}. Arguments has_client {N}.
Arguments e_now {N}. Arguments e_acc {N}. Arguments e_spi {N}. Arguments e_up_read {N}. Arguments e_up_led {N}. Arguments e_up_accept {N}.
Arguments e_tcp {N}. Arguments e_msgs {N}. Arguments e_pending {N}. Arguments e_serial {N}. Arguments e_mqtt_up {N}. Arguments e_temp {N}.
Arguments Pass {N}. Arguments Bluetooth {N}.
