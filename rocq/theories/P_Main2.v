(** Frames of the remaining tasks and of whole passes. *)
From Verif Require Import Base Num M_Libc M_Checkbits M_Linalg M_Helper M_Alignment M_Telescope M_Stellarium M_Gnss M_NexStar S_NexStar P_NexStar M_Led M_Imu M_Main P_Sched P_Main.
From Coq Require Import Strings.String.
Notation length := List.length.

Section P.
Context (N : Num) (T : Trig N) (pf : platform) (oor : conv_policy) (lc : libc N).
Context (qsort : list (vpair N) -> list (vpair N)) (m9 : res (F N)) (junk : option (F N * F N)).
Context (ftext : nat -> F N -> list Z) (left_first : bool) (cfg : config).
Notation dev := (dev N). Notation env := (env N).
Notation handle d req len := (handleRequest N T pf oor qsort m9 junk (d_tel d) (d_gnss d) req len (d_tx d) 256).

Definition sized (d : dev) : Prop := length (d_tx d) = 256%nat /\ length (d_rx d) = 256%nat.
Definition is_ack (o : out) : bool := match o with TcpOut b | BtOut b => match b with [x] => x =? 35 | _ => false end | _ => false end.

Lemma handle_reply t g req resp n tx t' : length resp = 256%nat ->
  handleRequest N T pf oor qsort m9 junk t g req (Z.of_nat (length req)) resp 256 = Ok (n, tx, t') ->
  length tx = 256%nat /\ 0 <= n <= 18 /\ t_orient t' = t_orient t /\
  t_cal t' = orb (t_cal t) (existsb is_ack [TcpOut (firstn (Z.to_nat n) tx)]) /\
  existsb is_ack [BtOut (firstn (Z.to_nat n) tx)] = existsb is_ack [TcpOut (firstn (Z.to_nat n) tx)] /\
  (existsb is_ack [TcpOut (firstn (Z.to_nat n) tx)] = true <-> is_sync req) /\ (~ is_sync req -> t' = t).
Proof.
  intros Hl E. destruct (handle_result _ _ _ _ _ _ _ _ _ _ _ _ _ _ Hl E) as (L & B & O & H).
  split; [exact L|]. split; [exact B|]. split; [exact O|].
  destruct H as [(-> & H1 & H2 & H3)|(H1 & -> & H3)].
  - change (Z.to_nat 1) with 1%nat. rewrite H1. cbn. rewrite H2, orb_true_r. repeat split; tauto.
  - assert (E1 : existsb is_ack [TcpOut (firstn (Z.to_nat n) tx)] = false).
    { cbn [existsb is_ack]. destruct (firstn (Z.to_nat n) tx) as [|a [|b l]] eqn:El; try reflexivity.
      apply (f_equal (@length Z)) in El. rewrite firstn_length, L in El. cbn [length] in El. lia. }
    assert (E2 : existsb is_ack [BtOut (firstn (Z.to_nat n) tx)] = false) by exact E1.
    rewrite E1, E2, orb_false_r. repeat split; try tauto; try discriminate.
Qed.

(** ** Bluetooth *)
Lemma bluetooth_frame d req d' o : onBluetoothData N T pf oor qsort m9 junk d req = Ok (d', o) -> sized d ->
  exists n tx tel, handle d req (Z.of_nat (length req)) = Ok (n, tx, tel) /\ length tx = 256%nat /\ 0 <= n <= 18 /\
    d' = (if 0 <? n then set_nexstar N (set_tel N (set_tx N d tx) tel) true else set_tel N (set_tx N d tx) tel) /\
    o = (if 0 <? n then [BtOut (firstn (Z.to_nat n) tx)] else []) /\
    t_orient tel = t_orient (d_tel d) /\
    t_cal tel = orb (t_cal (d_tel d)) (existsb is_ack o) /\ (existsb is_ack o = true <-> is_sync req) /\ (~ is_sync req -> tel = d_tel d).
Proof.
  unfold onBluetoothData. intros E [Ht Hr].
  destruct (handle d req (Z.of_nat (length req))) as [[[n tx] tel]|] eqn:Eh; [|discriminate]. cbn [bind] in E.
  destruct (handle_reply _ _ _ _ _ _ _ Ht Eh) as (L & B & O & C & BT & S & U).
  exists n, tx, tel. split; [reflexivity|]. split; [exact L|]. split; [exact B|].
  destruct (Z.ltb_spec 0 n).
  - apply Ok2 in E. destruct E as [<- <-]. rewrite BT. repeat split; try tauto; try assumption; try (apply S).
  - apply Ok2 in E. destruct E as [<- <-]. assert (n = 0) by lia. subst n. cbn in C, S. repeat split; try tauto; try assumption; cbn; tauto.
Qed.

(** ** TCP *)
Definition rx_after (d : dev) (e : env) : list Z :=
  match e_tcp e with Some bytes => let b := firstn 256 bytes in b ++ skipn (length b) (d_rx d) | None => d_rx d end.
Definition received (e : env) : Z := match e_tcp e with Some bytes => Z.of_nat (length (firstn 256 bytes)) | None => u32 (-1) end.
Lemma rx_after_length d e : sized d -> length (rx_after d e) = 256%nat.
Proof.
  intros [_ H]. unfold rx_after. destruct (e_tcp e); [|exact H]. cbv zeta. rewrite app_length, skipn_length, H.
  pose proof (firstn_le_length 256 l). lia.
Qed.
Lemma addRef_frame t a b c l t' : addReferencePoint N T qsort m9 junk t a b c l = Ok t' -> t_orient t' = t_orient t /\ t_cal t' = t_cal t.
Proof.
  unfold addReferencePoint. match goal with |- (do _ <- ?r; _) = _ -> _ => destruct r as [[? ?]|] end; [|discriminate]. cbn [bind].
  match goal with |- (do _ <- ?r; _) = _ -> _ => destruct r end; [|discriminate]. cbn [bind]. intros E. apply Ok1 in E. subst t'. split; reflexivity.
Qed.
Lemma serve_tcp_frame d e d' o : serve_tcp N T pf oor qsort m9 junk d e = Ok (d', o) -> sized d ->
  exists tx tel nx, d' = set_nexstar N (set_tel N (set_tx N (set_rx N d (rx_after d e)) tx) tel) nx /\ length tx = 256%nat /\
    t_orient tel = t_orient (d_tel d) /\ t_cal tel = orb (t_cal (d_tel d)) (existsb is_ack o) /\
    ((o = [] /\ nx = d_nexstar d) \/ (exists b, o = [TcpOut b] /\ (1 <= length b <= 18)%nat /\ nx = true)) /\
    (existsb is_ack o = true -> is_sync (rx_after d e)) /\ (received e = 0 -> o = [] /\ tel = d_tel d /\ tx = d_tx d).
Proof.
  intros E S. pose proof (rx_after_length d e S) as HR. destruct S as [Ht Hr].
  assert (E' : (if 0 <? received e then
    do '(n, tx, tel) <- handle (set_rx N d (rx_after d e)) (rx_after d e) 256;
    let d2 := set_tel N (set_tx N (set_rx N d (rx_after d e)) tx) tel in
    if 0 <? n then Ok (set_nexstar N d2 true, [TcpOut (firstn (Z.to_nat n) tx)])
    else
      do '(ok, o) <- unpackPosition N false (rx_after d e) (received e) (Build_unpack_out (fZ N 0) (fZ N 0) 0);
      if ok : bool then
        do tel <- addReferencePoint N T qsort m9 junk (d_tel d2) (o_ra o) (o_dec o) (g_latitude (d_gnss d2)) (lst N d2);
        Ok (set_tel N d2 tel, [])
      else Ok (d2, [])
    else Ok (set_rx N d (rx_after d e), [])) = Ok (d', o)).
  { rewrite <- E. unfold serve_tcp, rx_after, received. destruct (e_tcp e); reflexivity. }
  clear E. revert E'. destruct (Z.ltb_spec 0 (received e)) as [Hn|Hn]; intros E.
  - destruct (handle (set_rx N d (rx_after d e)) (rx_after d e) 256) as [[[n tx] tel]|] eqn:Eh; [|discriminate]. cbn [bind] in E.
    replace 256 with (Z.of_nat (length (rx_after d e))) in Eh at 1 by (rewrite HR; reflexivity).
    destruct (handle_reply _ _ _ _ _ _ _ Ht Eh) as (L & B & O & C & BT & S & U).
    cbv zeta in E. destruct (Z.ltb_spec 0 n).
    + apply Ok2 in E. destruct E as [<- <-]. exists tx, tel, true. split; [reflexivity|]. split; [exact L|]. split; [exact O|]. split; [exact C|].
      split; [right; eexists; split; [reflexivity|]; split; [rewrite firstn_length, L; lia|reflexivity]|].
      split; [apply S|]. lia.
    + assert (n = 0) by lia. subst n. cbn in C, S. rewrite orb_false_r in C.
      destruct (unpackPosition N false (rx_after d e) (received e) (Build_unpack_out (fZ N 0) (fZ N 0) 0)) as [[[|] uo]|]; [| |discriminate]; cbn [bind] in E.
      * match type of E with (do _ <- ?r; _) = _ => destruct r as [tel2|] eqn:Er end; [|discriminate]. cbn [bind] in E.
        apply Ok2 in E. destruct E as [<- <-]. apply addRef_frame in Er. cbn [set_tel d_tel] in Er. destruct Er as [R1 R2].
        exists tx, tel2, (d_nexstar d). split; [destruct d; reflexivity|]. split; [exact L|]. split; [cbn [d_tel set_rx] in O; congruence|]. split; [cbn [existsb]; rewrite orb_false_r; cbn [d_tel set_rx] in C; congruence|].
        split; [left; auto|]. split; [discriminate|]. lia.
      * apply Ok2 in E. destruct E as [<- <-]. exists tx, tel, (d_nexstar d). split; [destruct d; reflexivity|]. split; [exact L|]. split; [exact O|]. split; [cbn [existsb]; rewrite orb_false_r; exact C|].
        split; [left; auto|]. split; [discriminate|]. lia.
  - apply Ok2 in E. destruct E as [<- <-]. exists (d_tx d), (d_tel d), (d_nexstar d). split; [destruct d; reflexivity|]. split; [exact Ht|].
    split; [reflexivity|]. split; [cbn; rewrite orb_false_r; reflexivity|]. split; [left; auto|]. split; [discriminate|]. auto.
Qed.

(** ** MQTT messages *)
Definition orders_reset (topic : string) (payload : list Z) : bool :=
  match find_sub (str CONTROL_TOPIC) (str topic), payload with Some _, c :: _ => c =? 49 | _, _ => false end.
Lemma pub_not_ack o : Forall is_pub o -> existsb is_ack o = false.
Proof. induction 1 as [|x o Hx Ho IH]; [reflexivity|]. cbn [existsb]. rewrite IH. destruct x; try contradiction; reflexivity. Qed.
Lemma callback_frame d tp pl d' o : mqttCallback N d tp pl = Ok (d', o) -> length (d_tx d) = 256%nat ->
  exists tx, length tx = 256%nat /\ Forall is_pub o /\
    d' = set_tel N (set_tx N d tx) (Tele (if orders_reset tp pl then clearAll N (t_align (d_tel d)) else t_align (d_tel d)) (t_orient (d_tel d)) (t_cal (d_tel d))) /\
    (orders_reset tp pl = false -> tx = d_tx d /\ o = []).
Proof.
  intros E Ht. unfold mqttCallback, orders_reset in *.
  assert (K : d = set_tel N (set_tx N d (d_tx d)) (Tele (t_align (d_tel d)) (t_orient (d_tel d)) (t_cal (d_tel d)))) by (destruct d as [? []]; reflexivity).
  destruct pl as [|c pl].
  - apply Ok2 in E. destruct E as [<- <-]. exists (d_tx d). split; [exact Ht|]. split; [constructor|]. destruct (find_sub (str CONTROL_TOPIC) (str tp)); auto.
  - destruct (find_sub (str CONTROL_TOPIC) (str tp)).
    + destruct (c =? 49).
      * cbv zeta in E. destruct (wr (d_tx d) 0 48) as [tx|] eqn:Ew; cbn [set_tel d_tx] in E; rewrite Ew in E; [|discriminate]. cbn [bind] in E.
        apply Ok2 in E. destruct E as [<- <-]. exists tx. split; [apply wr_length in Ew; congruence|]. split; [apply mqtt_publish_pub|]. split; [reflexivity|discriminate].
      * apply Ok2 in E. destruct E as [<- <-]. exists (d_tx d). split; [exact Ht|]. split; [constructor|]. auto.
    + apply Ok2 in E. destruct E as [<- <-]. exists (d_tx d). split; [exact Ht|]. split; [constructor|]. auto.
Qed.
Lemma mqtt_loop_frame msgs : forall d d' o, mqtt_loop N d msgs = Ok (d', o) -> length (d_tx d) = 256%nat ->
  exists tx, length tx = 256%nat /\ Forall is_pub o /\
    d' = set_tel N (set_tx N d tx) (Tele (if existsb (fun m => orders_reset (fst m) (snd m)) msgs then clearAll N (t_align (d_tel d)) else t_align (d_tel d)) (t_orient (d_tel d)) (t_cal (d_tel d))) /\
    (existsb (fun m => orders_reset (fst m) (snd m)) msgs = false -> tx = d_tx d /\ o = []).
Proof.
  induction msgs as [|[tp pl] msgs IH]; intros d d' o E Ht; cbn [mqtt_loop] in E.
  - apply Ok2 in E. destruct E as [<- <-]. exists (d_tx d). split; [exact Ht|]. split; [constructor|]. split; [destruct d as [? []]; reflexivity|auto].
  - destruct (mqttCallback N d tp pl) as [[d1 o1]|] eqn:E1; [|discriminate]. cbn [bind] in E.
    destruct (mqtt_loop N d1 msgs) as [[d2 o2]|] eqn:E2; [|discriminate]. cbn [bind] in E. apply Ok2 in E. destruct E as [<- <-].
    destruct (callback_frame _ _ _ _ _ E1 Ht) as (tx1 & L1 & P1 & D1 & K1). subst d1.
    destruct (IH _ _ _ E2 L1) as (tx2 & L2 & P2 & D2 & K2). subst d2. clear E1 E2 IH.
    exists tx2. split; [exact L2|]. split; [apply Forall_app; auto|]. cbn [existsb fst snd].
    cbn [set_tel set_tx d_tel d_tx t_align t_orient t_cal] in *. split.
    + destruct (orders_reset tp pl), (existsb _ msgs); reflexivity.
    + intros E. apply orb_false_iff in E. destruct E as [Ea Eb]. destruct (K1 Ea) as [-> ->]. destruct (K2 Eb) as [-> ->]. auto.
Qed.

(** ** 100 ms task *)
Definition accepts (c : option Z) (e : env) : option Z * list out :=
  match e_pending e with
  | [] => (c, [])
  | p :: more => if (match c with Some _ => true | None => false end) && e_up_accept e
                 then (c, Rejected p :: match more with [] => [] | c2 :: _ => [Rejected c2] end)
                 else (Some p, [Accepted p])
  end.
Lemma check_accepts d e : checkForConnections N d e = (set_client N d (fst (accepts (d_client d) e)), snd (accepts (d_client d) e)).
Proof.
  unfold checkForConnections, accepts. destruct (e_pending e). { destruct d; reflexivity. }
  destruct (d_client d) eqn:E; cbn [andb].
  - destruct (e_up_accept e); [|reflexivity]. cbn [fst snd]. rewrite <- E. destruct d; reflexivity.
  - reflexivity.
Qed.
Definition set_orient (d : dev) h p : dev := set_tel N (set_attitude N d h p) (setOrientation N (d_tel d) (f32 N (fadd N h (fZ N 0))) p).
Definition d_after_read (d : dev) (e : env) (p : F N) : dev := set_orient d (filter_heading N (d_heading d) (heading_raw N left_first e)) p.
Definition tcp_part (d : dev) (e : env) := if has_client d && e_up_read e then serve_tcp N T pf oor qsort m9 junk d e else Ok (d, []).
Definition mqtt_part (d : dev) (e : env) := if c_mqtt cfg then mqtt_loop N d (e_msgs e) else Ok (d, []).
Definition conn_part (d : dev) (e : env) : dev * list out := if c_wifi cfg then checkForConnections N d e else (d, []).
Lemma task_100_parts d e d' o : task_100ms N T pf oor qsort m9 junk left_first cfg d e = Ok (d', o) ->
  exists p d1 o1 d2 o2, measure_pitch N T d = Ok p /\ tcp_part (d_after_read d e p) e = Ok (d1, o1) /\ mqtt_part d1 e = Ok (d2, o2) /\
    d' = fst (conn_part (set_led N d2 (led_for N d2 e)) e) /\ o = o1 ++ o2 ++ snd (conn_part (set_led N d2 (led_for N d2 e)) e).
Proof.
  unfold task_100ms. destruct (measure_pitch N T d) as [p|]; [|discriminate]. cbn [bind]. cbv zeta.
  intros E. exists p. unfold tcp_part, mqtt_part, conn_part, d_after_read, set_orient.
  match type of E with (do _ <- ?r; _) = _ => destruct r as [[d1 o1]|] eqn:E1 end; [|discriminate]. cbn [bind] in E.
  match type of E with (do _ <- ?r; _) = _ => destruct r as [[d2 o2]|] eqn:E2 end; [|discriminate]. cbn [bind] in E.
  exists d1, o1, d2, o2. split; [reflexivity|]. split; [exact E1|]. split; [exact E2|].
  destruct (c_wifi cfg).
  - destruct (checkForConnections N _ e) as [d3 o3]. apply Ok2 in E. destruct E as [<- <-]. auto.
  - apply Ok2 in E. destruct E as [<- <-]. auto.
Qed.

(** what the 100 ms task leaves: every field of the state *)
Lemma task_100_frame d e d' o : task_100ms N T pf oor qsort m9 junk left_first cfg d e = Ok (d', o) -> sized d ->
  exists p tx rx tel nx oa ob, length tx = 256%nat /\ length rx = 256%nat /\
    measure_pitch N T d = Ok p /\
    let h := filter_heading N (d_heading d) (heading_raw N left_first e) in
    let c := if c_wifi cfg then accepts (d_client d) e else (d_client d, []) in
    d' = Dev N (d_timers d) tel (d_gnss d) (d_imu d) (led_for N d e) h p (d_temperature d) nx (d_gnssTimeout d) (d_gnssAvailable d) (fst c) tx rx /\
    o = oa ++ ob ++ snd c /\ Forall is_pub ob /\
    t_cal tel = orb (t_cal (d_tel d)) (existsb is_ack oa) /\ t_orient tel = Pt (f32 N (fadd N h (fZ N 0))) p /\
    ((oa = [] /\ nx = d_nexstar d) \/ (exists b, oa = [TcpOut b] /\ (1 <= length b <= 18)%nat /\ nx = true)) /\
    (has_client d && e_up_read e = false -> rx = d_rx d /\ oa = []) /\ (has_client d && e_up_read e = true -> rx = rx_after d e) /\
    (existsb is_ack oa = true -> is_sync (rx_after d e)).
Proof.
  intros E S. apply task_100_parts in E. destruct E as (p & d1 & o1 & d2 & o2 & Em & E1 & E2 & -> & ->).
  set (h := filter_heading N (d_heading d) (heading_raw N left_first e)).
  assert (E1' : exists tx rx tel nx, d1 = Dev N (d_timers d) tel (d_gnss d) (d_imu d) (d_led d) h p (d_temperature d) nx (d_gnssTimeout d) (d_gnssAvailable d) (d_client d) tx rx /\
     length tx = 256%nat /\ length rx = 256%nat /\ t_cal tel = orb (t_cal (d_tel d)) (existsb is_ack o1) /\ t_orient tel = Pt (f32 N (fadd N h (fZ N 0))) p /\
     ((o1 = [] /\ nx = d_nexstar d) \/ (exists b, o1 = [TcpOut b] /\ (1 <= length b <= 18)%nat /\ nx = true)) /\
     (has_client d && e_up_read e = false -> rx = d_rx d /\ o1 = []) /\ (has_client d && e_up_read e = true -> rx = rx_after d e) /\
     (existsb is_ack o1 = true -> is_sync (rx_after d e))).
  { unfold tcp_part in E1. change (has_client (d_after_read d e p)) with (has_client d) in E1. destruct (has_client d && e_up_read e).
    - apply serve_tcp_frame in E1; [|exact S]. destruct E1 as (tx & tel & nx & -> & L & O & C & D & A & _).
      exists tx, (rx_after d e), tel, nx. split; [reflexivity|]. split; [exact L|]. split; [apply rx_after_length, S|]. split; [exact C|]. split; [exact O|].
      split; [exact D|]. split; [discriminate|]. split; [reflexivity|exact A].
    - apply Ok2 in E1. destruct E1 as [<- <-]. destruct S as [S1 S2]. exists (d_tx d), (d_rx d), (setOrientation N (d_tel d) (f32 N (fadd N h (fZ N 0))) p), (d_nexstar d).
      split; [reflexivity|]. split; [exact S1|]. split; [exact S2|]. split; [cbn; rewrite orb_false_r; reflexivity|]. split; [reflexivity|]. split; [left; auto|]. split; [auto|]. split; [discriminate|discriminate]. }
  destruct E1' as (tx & rx & tel & nx & -> & L & LR & C & O & D & R1 & R2 & A). clear E1.
  assert (E2' : exists tx2 al, d2 = Dev N (d_timers d) (Tele al (t_orient tel) (t_cal tel)) (d_gnss d) (d_imu d) (d_led d) h p (d_temperature d) nx (d_gnssTimeout d) (d_gnssAvailable d) (d_client d) tx2 rx /\
     length tx2 = 256%nat /\ Forall is_pub o2).
  { unfold mqtt_part in E2. destruct (c_mqtt cfg).
    - apply mqtt_loop_frame in E2; [|exact L]. destruct E2 as (tx2 & L2 & P2 & -> & _). eexists tx2, _. split; [reflexivity|]. auto.
    - apply Ok2 in E2. destruct E2 as [<- <-]. exists tx, (t_align tel). split; [destruct tel; reflexivity|]. auto. }
  destruct E2' as (tx2 & al & -> & L2 & P2). clear E2.
  exists p, tx2, rx, (Tele al (t_orient tel) (t_cal tel)), nx, o1, o2. split; [exact L2|]. split; [exact LR|]. split; [exact Em|]. cbv zeta.
  unfold conn_part. rewrite check_accepts. destruct (c_wifi cfg); cbn [fst snd]; repeat split; auto; apply R1; auto.
Qed.

(** ** 2 s task *)
Lemma task_2s_frame d e d' o : task_2s N ftext cfg d e = Ok (d', o) -> sized d ->
  exists tx rx, length tx = 256%nat /\ length rx = 256%nat /\
    d' = (let d := set_rx N (set_tx N d tx) rx in if c_sensor cfg then set_temperature N d (e_temp e) else d) /\
    Forall (fun x => is_pub x \/ x = MqttConnect) o /\ existsb is_ack o = false /\ rx = 1 :: 2 :: skipn 2 (d_rx d).
Proof.
  unfold task_2s. intros E [St Sr].
  destruct (wr (d_tx d) 0 0) as [t1|] eqn:E1; [|discriminate]. cbn [bind] in E.
  destruct (wr t1 1 0) as [t2|] eqn:E2; [|discriminate]. cbn [bind] in E.
  destruct (wr (d_rx d) 0 1) as [r1|] eqn:E3; [|discriminate]. cbn [bind] in E.
  destruct (wr r1 1 2) as [r2|] eqn:E4; [|discriminate]. cbn [bind] in E. cbv zeta in E.
  assert (R : r2 = 1 :: 2 :: skipn 2 (d_rx d)).
  { destruct (d_rx d) as [|a [|b l]]; try discriminate Sr. cbn in E3. apply Ok1 in E3. subst r1. cbn in E4. apply Ok1 in E4. subst r2. reflexivity. }
  apply wr_length in E1, E2, E3, E4. change (d_gnssAvailable (set_rx N (set_tx N d t2) r2)) with (d_gnssAvailable d) in E.
  assert (H2 : Forall (fun x => is_pub x \/ x = MqttConnect) (if c_mqtt cfg && negb (e_mqtt_up e) then [MqttConnect] else []) /\ existsb is_ack (if c_mqtt cfg && negb (e_mqtt_up e) then [MqttConnect] else []) = false).
  { destruct (c_mqtt cfg && negb (e_mqtt_up e)); split; try reflexivity; auto. }
  destruct H2 as [H2 H3].
  destruct (d_gnssAvailable d).
  - cbn [set_rx set_tx d_tx d_gnss] in E.
    destruct (snprintf t2 256 (gnss_text N ftext (d_gnss d))) as [[n t3]|] eqn:E5; [|discriminate]. cbn [bind] in E. apply snprintf_length in E5. destruct E5 as [E5 _].
    destruct (c_broker cfg).
    + destruct (cstring t3) as [s|]; [|discriminate]. cbn [bind] in E. apply Ok2 in E. destruct E as [<- <-]. exists t3, r2. split; [congruence|]. split; [congruence|]. split; [destruct (c_sensor cfg); reflexivity|].
      assert (P : Forall is_pub ([BrokerOut (topic "gnss") s] ++ (if c_mqtt cfg then mqtt_publish (topic "gnss") t3 n else []))).
      { apply Forall_app. split; [repeat constructor|]. destruct (c_mqtt cfg); [apply mqtt_publish_pub|constructor]. }
      split; [apply Forall_app; split; [eapply Forall_impl; [|exact P]; auto|exact H2]|]. split; [rewrite existsb_app, H3, (pub_not_ack _ P); reflexivity|exact R].
    + cbn [bind] in E. apply Ok2 in E. destruct E as [<- <-]. exists t3, r2. split; [congruence|]. split; [congruence|]. split; [destruct (c_sensor cfg); reflexivity|].
      assert (P : Forall is_pub ([] ++ (if c_mqtt cfg then mqtt_publish (topic "gnss") t3 n else []))).
      { destruct (c_mqtt cfg); [apply mqtt_publish_pub|constructor]. }
      split; [apply Forall_app; split; [eapply Forall_impl; [|exact P]; auto|exact H2]|]. split; [rewrite existsb_app, H3, (pub_not_ack _ P); reflexivity|exact R].
  - cbn [bind] in E. apply Ok2 in E. destruct E as [<- <-]. exists t2, r2. split; [congruence|]. split; [congruence|]. split; [destruct (c_sensor cfg); reflexivity|]. split; [exact H2|]. split; [exact H3|exact R].
Qed.

(** ** one pass *)
Definition the_task (d : dev) (e : env) : task := fst (select (d_timers d) (e_now e)).
Notation loop := (loop N T pf oor lc qsort m9 junk ftext left_first cfg).
Notation run_task := (run_task N T pf oor lc qsort m9 junk ftext left_first cfg).
Lemma loop_run d e : loop d e = run_task (the_task d e) (set_timers N d (snd (select (d_timers d) (e_now e)))) e.
Proof. unfold M_Main.loop, the_task. destruct (select (d_timers d) (e_now e)); reflexivity. Qed.
Lemma task_500_state d e d' o : task_500ms N T pf oor lc ftext cfg d e = Ok (d', o) -> sized d ->
  exists d1, poll_gnss N pf oor lc d e = Ok d1 /\ tx_only N d1 d' /\ sized d1 /\ existsb is_ack o = false /\
    exists g rx, d1 = set_rx N (set_gnss N d g (timeout_after (kind N pf oor lc d e) (d_gnssTimeout d)) (available_after (kind N pf oor lc d e) (d_gnssTimeout d) (d_gnssAvailable d))) rx.
Proof.
  intros E S. destruct (task_500_frame _ _ _ _ _ _ _ _ _ _ _ E (proj2 S)) as (d1 & q & ty & E1 & E2 & E3 & E4).
  destruct (poll_frame _ _ _ _ _ _ _ E1 (proj2 S)) as (rx & g & Eg & Lr & _). exists d1. split; [exact E1|]. split; [exact E2|].
  split; [subst d1; split; [exact (proj1 S)|exact Lr]|]. split; [|exists g, rx; exact Eg].
  destruct (c_sensor cfg).
  - destruct (E4 eq_refl) as (_ & o1 & o2 & d2 & H1 & -> & H2). apply send_position_frame in H1. destruct H1 as (_ & H1).
    rewrite existsb_app, (pub_not_ack _ H2), orb_false_r. destruct H1 as [->|((b & -> & Hp) & _)]; [reflexivity|].
    cbn [existsb is_ack]. apply pack_length in Hp. rewrite orb_false_r. destruct (firstn 24 b) as [|x [|y l]] eqn:El; try reflexivity.
    apply (f_equal (@length Z)) in El. rewrite firstn_length, Hp in El. subst d1. cbn [set_rx set_gnss d_tx] in El. destruct S as [S _]. rewrite S in El. discriminate El.
  - destruct (E3 eq_refl) as [-> _]. reflexivity.
Qed.

(** the part of the state that no task but one changes *)
Lemma loop_summary d e d' o : loop d e = Ok (d', o) -> sized d ->
  sized d' /\ d_timers d' = snd (select (d_timers d) (e_now e)) /\
  t_cal (d_tel d') = orb (t_cal (d_tel d)) (existsb is_ack o) /\
  (the_task d e <> Task100ms -> d_led d' = d_led d /\ d_heading d' = d_heading d /\ d_pitch d' = d_pitch d /\ d_client d' = d_client d /\ d_nexstar d' = d_nexstar d /\ d_tel d' = d_tel d) /\
  (the_task d e <> Task500ms -> d_gnss d' = d_gnss d /\ d_gnssTimeout d' = d_gnssTimeout d /\ d_gnssAvailable d' = d_gnssAvailable d) /\
  (the_task d e <> Filter -> d_imu d' = d_imu d).
Proof.
  rewrite loop_run. set (d0 := set_timers N d (snd (select (d_timers d) (e_now e)))). intros E S.
  assert (S0 : sized d0) by exact S. destruct (the_task d e) eqn:Et; cbn [M_Main.run_task] in E.
  - unfold task_filter in E. destruct (c_sensor cfg).
    + destruct (e_acc e) as [[x y] z]. match type of E with (do _ <- ?r; _) = _ => destruct r as [i|] end; [|discriminate]. cbn [bind] in E. apply Ok2 in E. destruct E as [<- <-].
      split; [exact S|]. split; [reflexivity|]. split; [cbn; rewrite orb_false_r; reflexivity|]. repeat split; try reflexivity; intros C; congruence.
    + apply Ok2 in E. destruct E as [<- <-]. split; [exact S|]. split; [reflexivity|]. split; [cbn; rewrite orb_false_r; reflexivity|]. repeat split; reflexivity.
  - unfold task_25ms in E. apply Ok2 in E. destruct E as [<- <-]. split; [exact S|]. split; [reflexivity|]. split; [destruct (led_update _ _); cbn; rewrite orb_false_r; reflexivity|]. repeat split; reflexivity.
  - apply task_100_frame in E; [|exact S0]. destruct E as (p & tx & rx & tel & nx & oa & ob & L & LR & Em & E). cbv zeta in E.
    destruct E as (-> & -> & Po & C & _). split; [split; assumption|]. split; [reflexivity|]. cbn [d_tel d_led d_heading d_pitch d_client d_nexstar d_gnss d_gnssTimeout d_gnssAvailable d_imu].
    split; [|split; [intros X; congruence|split; [intros _; repeat split; reflexivity|reflexivity]]].
    rewrite C, !existsb_app, (pub_not_ack _ Po).
    assert (K : existsb is_ack (snd (if c_wifi cfg then accepts (d_client d0) e else (d_client d0, []))) = false).
    { destruct (c_wifi cfg); [|reflexivity]. unfold accepts. destruct (e_pending e) as [|p0 more]; [reflexivity|]. destruct (_ && _); [|reflexivity]. destruct more; reflexivity. }
    rewrite K, !orb_false_r. reflexivity.
  - apply task_500_state in E; [|exact S0]. destruct E as (d1 & E1 & (tx & -> & L) & S1 & A & g & rx & ->).
    split; [split; [cbn [set_tx d_tx]; rewrite L; apply S1|apply S1]|]. split; [reflexivity|]. split; [rewrite A, orb_false_r; reflexivity|].
    split; [intros _; repeat split; reflexivity|]. split; [intros X; congruence|reflexivity].
  - apply Ok2 in E. destruct E as [<- <-]. split; [exact S|]. split; [reflexivity|]. split; [cbn; rewrite orb_false_r; reflexivity|]. repeat split; reflexivity.
  - apply task_2s_frame in E; [|exact S0]. destruct E as (tx & rx & L & LR & -> & _ & A & _). cbv zeta.
    assert (K : forall d2 : dev, d2 = set_rx N (set_tx N d0 tx) rx -> let d3 := if c_sensor cfg then set_temperature N d2 (e_temp e) else d2 in
      d_tx d3 = tx /\ d_rx d3 = rx /\ d_timers d3 = d_timers d0 /\ d_tel d3 = d_tel d /\ d_led d3 = d_led d /\ d_heading d3 = d_heading d /\ d_pitch d3 = d_pitch d /\ d_client d3 = d_client d /\ d_nexstar d3 = d_nexstar d /\
      d_gnss d3 = d_gnss d /\ d_gnssTimeout d3 = d_gnssTimeout d /\ d_gnssAvailable d3 = d_gnssAvailable d /\ d_imu d3 = d_imu d).
    { intros d2 ->. destruct (c_sensor cfg); repeat split; reflexivity. }
    specialize (K _ eq_refl). cbv zeta in K. set (d3 := if c_sensor cfg then _ else _) in *. destruct K as (K1 & K2 & K3 & K4 & K5 & K6 & K7 & K8 & K9 & K10 & K11 & K12 & K13).
    unfold sized. rewrite K1, K2, K3, K4, A, orb_false_r. repeat split; auto.
  - apply Ok2 in E. destruct E as [<- <-]. split; [exact S|]. split; [reflexivity|]. split; [cbn; rewrite orb_false_r; reflexivity|]. repeat split; reflexivity.
  - apply Ok2 in E. destruct E as [<- <-]. split; [exact S|]. split; [reflexivity|]. split; [cbn; rewrite orb_false_r; reflexivity|]. repeat split; reflexivity.
Qed.

Notation step := (step N T pf oor lc qsort m9 junk ftext left_first cfg).
Notation history := (history N T pf oor lc qsort m9 junk ftext left_first cfg).
Lemma step_summary d ev d' o : step d ev = Ok (d', o) -> sized d ->
  sized d' /\ t_cal (d_tel d') = orb (t_cal (d_tel d)) (existsb is_ack o).
Proof.
  destruct ev as [e|req]; cbn [M_Main.step]; intros E S.
  - apply loop_summary in E; [|exact S]. tauto.
  - apply bluetooth_frame in E; [|exact S]. destruct E as (n & tx & tel & _ & L & _ & -> & _ & _ & C & _).
    destruct (0 <? n); (split; [split; [exact L|apply S]|exact C]).
Qed.
Lemma history_app evs1 : forall d evs2, history d (evs1 ++ evs2) = (do '(d, o1) <- history d evs1; do '(d, o2) <- history d evs2; Ok (d, o1 ++ o2)).
Proof.
  induction evs1 as [|ev evs1 IH]; intros d evs2; cbn [app M_Main.history].
  - cbn [bind]. destruct (history d evs2) as [[? ?]|]; reflexivity.
  - destruct (step d ev) as [[d1 o1]|]; [|reflexivity]. cbn [bind]. rewrite IH. destruct (history d1 evs1) as [[d2 o2]|]; [|reflexivity]. cbn [bind].
    destruct (history d2 evs2) as [[d3 o3]|]; [|reflexivity]. cbn [bind]. rewrite app_assoc. reflexivity.
Qed.
Lemma history_summary evs : forall d d' o, history d evs = Ok (d', o) -> sized d ->
  sized d' /\ t_cal (d_tel d') = orb (t_cal (d_tel d)) (existsb is_ack o).
Proof.
  induction evs as [|ev evs IH]; intros d d' o E S; cbn [M_Main.history] in E.
  - apply Ok2 in E. destruct E as [<- <-]. cbn. rewrite orb_false_r. auto.
  - destruct (step d ev) as [[d1 o1]|] eqn:E1; [|discriminate]. cbn [bind] in E. destruct (history d1 evs) as [[d2 o2]|] eqn:E2; [|discriminate]. cbn [bind] in E.
    apply Ok2 in E. destruct E as [<- <-]. apply step_summary in E1; [|exact S]. destruct E1 as [S1 C1]. apply IH in E2; [|exact S1]. destruct E2 as [S2 C2].
    split; [exact S2|]. rewrite C2, C1, existsb_app, orb_assoc. reflexivity.
Qed.
Lemma boot_sized : sized (boot N).
Proof. split; reflexivity. Qed.
End P.
