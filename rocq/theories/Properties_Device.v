(** C84, C89, C90: what whole histories of the device do (refuted expectations).  Each witness is a history from
    boot, for every arithmetic. *)
From Verif Require Import Base Num M_Libc P_Libc M_Checkbits M_Linalg M_Helper M_Alignment S_Alignment P_Alignment P_AlignState P_AlignSmall M_Telescope M_Stellarium S_Stellarium M_Gnss M_NexStar S_NexStar P_NexStar M_Led M_Imu P_Imu M_Main P_Sched P_Main P_Main2 P_Device Properties_NexStar Properties_Main3.
From Coq Require Import Strings.String Permutation.
Open Scope Z_scope.
Notation length := List.length.

Section Device.
Context (N : Num) (T : Trig N) (pf : platform) (oor : conv_policy) (lc : libc N).
Context (qsort : list (vpair N) -> list (vpair N)) (m9 : res (F N)) (junk : option (F N * F N)).
Context (ftext : nat -> F N -> list Z) (left_first : bool) (cfg : config).
Notation dev := (dev N). Notation env := (env N). Notation event := (event N).
Notation loop := (loop N T pf oor lc qsort m9 junk ftext left_first cfg).
Notation step := (step N T pf oor lc qsort m9 junk ftext left_first cfg).
Notation history := (history N T pf oor lc qsort m9 junk ftext left_first cfg).
Notation boot := (boot N).
Notation env_at := (env_at N). Notation three := (three N).

(** Three passes at base, base+1 and base+2 microseconds; the third runs the 100 ms task, which finds the given
    things.  The encoder is silent. *)
Definition connect_at (base c : Z) : list event := three base (env_at (base + 2) (Some []) [] [c] []).
Definition packet_at (base : Z) (bytes : list Z) : list event := three base (env_at (base + 2) (Some bytes) [] [] []).
Definition error_at (base : Z) : list event := three base (env_at (base + 2) None [] [] []).
Definition messages_at (base : Z) (msgs : list (string * list Z)) : list event := three base (env_at (base + 2) (Some []) msgs [] []).

(** the part of the state the witnesses need *)
Definition good (d : dev) (base : Z) : Prop := ready (d_timers d) base /\ imu_ok N (d_imu d) /\ sized N d /\ WF N (t_align (d_tel d)).
Definition led_only (o : list out) : Prop := Forall (fun x => exists b, x = LedOut b) o.
Lemma led_only_tcp o : led_only o -> tcp_bytes o = [].
Proof. induction 1 as [|x o (b & ->) _ IH]; [reflexivity|exact IH]. Qed.
Lemma boot_good base : 100000 < base < 4294967290 -> good boot base.
Proof.
  intros H. split; [|split; [apply imu_ok_init|split; [apply boot_sized|apply WF_init]]].
  unfold ready, M_Main.boot. cbn [d_timers k_filter k_25ms k_100ms]. lia.
Qed.
Lemma good_next d d' base base' : good d base -> d_timers d' = after3 (d_timers d) base -> base + 100010 < base' < 4294967290 ->
  imu_ok N (d_imu d') -> sized N d' -> WF N (t_align (d_tel d')) -> good d' base'.
Proof.
  intros (R & _) Ht Hb Hi Hs Hw. split; [|auto]. rewrite Ht. unfold ready, after3 in *. cbn [k_filter k_25ms k_100ms]. lia.
Qed.

Lemma connect_ok d base c : good d base -> d_client d = None -> c_wifi cfg = true ->
  exists d' o, history d (connect_at base c) = Ok (d', o) /\ d_timers d' = after3 (d_timers d) base /\ imu_ok N (d_imu d') /\
    d_client d' = Some c /\ d_tx d' = d_tx d /\ d_rx d' = d_rx d /\ t_align (d_tel d') = t_align (d_tel d) /\ t_cal (d_tel d') = t_cal (d_tel d) /\ tcp_bytes o = [].
Proof.
  intros (R & I & S & W) Hc Hw. unfold connect_at.
  destruct (cycle100 N T pf oor lc qsort m9 junk ftext left_first cfg d base (env_at (base + 2) (Some []) [] [c] []) R eq_refl I) as (i & p & o & Oi & Ol & E).
  rewrite E. clear E. unfold tcp_part. unfold has_client at 1. cbn [d_after_read set_orient set_tel set_attitude set_imu set_timers d_client]. rewrite Hc. cbn [andb bind].
  unfold mqtt_part. replace (if c_mqtt cfg then _ else _) with (Ok (d_after_read N left_first (set_imu N (set_timers N d (after3 (d_timers d) base)) i) (env_at (base + 2) (Some []) [] [c] []) p, @nil out)) by (destruct (c_mqtt cfg); reflexivity).
  cbn [bind]. unfold conn_part. rewrite Hw. unfold checkForConnections. cbn [P_Device.env_at e_pending].
  cbn [set_led d_after_read set_orient set_tel set_attitude set_imu set_timers d_client]. rewrite Hc. cbn [andb].
  eexists _, _. split; [reflexivity|]. cbn [set_client d_timers d_imu d_client d_tx d_rx d_tel setOrientation t_align t_cal].
  repeat (split; [first [reflexivity|assumption]|]). cbn [app]. rewrite tcp_app, (led_only_tcp _ Ol). reflexivity.
Qed.

(** a packet (or a read error) that handleRequest answers *)
Lemma packet_ok d base tcp c n tx tel : good d base -> d_client d = Some c ->
  let e := env_at (base + 2) tcp [] [] [] in
  0 < received N e -> 0 < n ->
  (forall o', handleRequest N T pf oor qsort m9 junk (Tele (t_align (d_tel d)) o' (t_cal (d_tel d))) (d_gnss d) (rx_after N d e) 256 (d_tx d) 256 = Ok (n, tx, tel o')) ->
  exists d' o' o, history d (three base e) = Ok (d', o) /\ d_timers d' = after3 (d_timers d) base /\ imu_ok N (d_imu d') /\
    d_client d' = Some c /\ d_tx d' = tx /\ d_rx d' = rx_after N d e /\ d_tel d' = tel o' /\ tcp_bytes o = [firstn (Z.to_nat n) tx].
Proof.
  intros (R & I & S & W) Hc e Hr Hn Hh.
  destruct (cycle100 N T pf oor lc qsort m9 junk ftext left_first cfg d base e R eq_refl I) as (i & p & o & Oi & Ol & E).
  rewrite E. clear E. set (D := d_after_read N left_first (set_imu N (set_timers N d (after3 (d_timers d) base)) i) e p).
  set (o' := t_orient (d_tel D)).
  assert (Es : serve_tcp N T pf oor qsort m9 junk D e = Ok (set_nexstar N (set_tel N (set_tx N (set_rx N D (rx_after N d e)) tx) (tel o')) true, [TcpOut (firstn (Z.to_nat n) tx)])).
  { unfold serve_tcp. replace (match e_tcp e with Some bytes => _ | None => _ end) with (received N e, rx_after N d e) by (unfold received, rx_after; destruct (e_tcp e); reflexivity).
    apply Z.ltb_lt in Hr. rewrite Hr. change (d_tel (set_rx N D (rx_after N d e))) with (Tele (t_align (d_tel d)) o' (t_cal (d_tel d))).
    change (d_gnss (set_rx N D (rx_after N d e))) with (d_gnss d). change (d_tx (set_rx N D (rx_after N d e))) with (d_tx d). rewrite Hh. cbn [bind].
    apply Z.ltb_lt in Hn. rewrite Hn. reflexivity. }
  unfold tcp_part. rewrite Es. replace (has_client D && e_up_read e) with true by (unfold has_client, D; cbn [d_after_read set_orient set_tel set_attitude set_imu set_timers d_client]; rewrite Hc; reflexivity).
  cbn [bind]. unfold mqtt_part.
  match goal with |- context[if c_mqtt cfg then mqtt_loop N ?x (e_msgs e) else _] => replace (if c_mqtt cfg then mqtt_loop N x (e_msgs e) else Ok (x, [])) with (Ok (x, @nil out)) by (destruct (c_mqtt cfg); reflexivity) end.
  cbn [bind]. unfold conn_part.
  match goal with |- context[if c_wifi cfg then checkForConnections N ?x e else _] => replace (if c_wifi cfg then checkForConnections N x e else (x, [])) with (x, @nil out) by (destruct (c_wifi cfg); reflexivity) end.
  eexists _, o', _. split; [reflexivity|]. split; [reflexivity|]. split; [exact Oi|]. split; [exact Hc|]. split; [reflexivity|]. split; [reflexivity|]. split; [reflexivity|].
  rewrite !tcp_app, (led_only_tcp _ Ol). reflexivity.
Qed.

Lemma handle_K t g x r resp : 0 <= x < 256 -> length resp = 256%nat -> length (75 :: x :: r) = 256%nat ->
  handleRequest N T pf oor qsort m9 junk t g (75 :: x :: r) 256 resp 256 = Ok (2, [x; 35; 0] ++ skipn 3 resp, t).
Proof.
  intros Hx Hl Hr. pose proof (handle_act N T pf oor qsort m9 junk t g (75 :: x :: r) [] resp 256) as H. rewrite app_nil_r, Hr in H. change (Z.of_nat 256) with 256 in H.
  rewrite H. change (act N t g (75 :: x :: r)) with (@AReply (pc x ++ [35])). cbn [perform]. unfold reply. rewrite snprintf_fits by (rewrite ?Hl; cbn [length pc app]; lia). cbn [pc app length bind].
  unfold u8. rewrite Z.mod_small by lia. reflexivity.
Qed.
Definition rx_K x := 75 :: x :: repeat 0 254.
Lemma accepted_then_K x : 0 <= x < 256 -> c_wifi cfg = true ->
  exists d o, history boot (connect_at 101000 7 ++ packet_at 301000 [75; x]) = Ok (d, o) /\ tcp_bytes o = [[x; 35]] /\ good d 501000 /\ d_client d = Some 7 /\ d_rx d = rx_K x.
Proof.
  intros Hx Hw. pose proof (boot_good 101000 ltac:(lia)) as G0.
  destruct (connect_ok boot 101000 7 G0 eq_refl Hw) as (d1 & o1 & E1 & T1 & I1 & C1 & X1 & R1 & A1 & K1 & B1).
  assert (G1 : good d1 301000).
  { apply (good_next boot d1 101000); auto; try lia.
    - unfold sized. rewrite X1, R1. apply boot_sized.
    - rewrite A1. apply G0. }
  destruct (packet_ok d1 301000 (Some [75; x]) 7 2 ([x; 35; 0] ++ skipn 3 (d_tx d1)) (fun o' => Tele (t_align (d_tel d1)) o' (t_cal (d_tel d1))) G1 C1) as (d2 & o' & o2 & E2 & T2 & I2 & C2 & X2 & R2 & A2 & B2).
  - reflexivity.
  - lia.
  - intros o'. unfold rx_after. cbn [P_Device.env_at e_tcp]. change (firstn 256 [75; x]) with [75; x]. cbn [length app]. rewrite R1. change (skipn 2 (d_rx boot)) with (repeat 0 254).
    apply handle_K; [exact Hx|apply G1|reflexivity].
  - exists d2, (o1 ++ o2). rewrite history_app. rewrite E1. cbn [bind]. unfold packet_at. rewrite E2. split; [reflexivity|]. split; [rewrite tcp_app, B1, B2; reflexivity|].
    assert (Rx : d_rx d2 = rx_K x). { rewrite R2. unfold rx_after. cbn [P_Device.env_at e_tcp]. change (firstn 256 [75; x]) with [75; x]. cbn [length app]. rewrite R1. reflexivity. }
    split; [|split; [exact C2|exact Rx]]. apply (good_next d1 d2 301000); auto; try lia.
    + unfold sized. rewrite X2, Rx. split; [|reflexivity]. cbn [length app]. rewrite skipn_length. destruct G1 as (_ & _ & [H _] & _). rewrite H. reflexivity.
    + rewrite A2. apply G1.
Qed.

(** ** C90.  The one-byte packet 'K' is answered with the second byte of whatever packet came before: the reply
    is not determined by the packet. *)
Theorem C90_short_request_uses_stale_bytes_refuted : forall x, 0 <= x < 256 -> c_wifi cfg = true ->
  exists d1 o1 d2 o2, history boot (connect_at 101000 7 ++ packet_at 301000 [75; x]) = Ok (d1, o1) /\
    history d1 (packet_at 501000 [75]) = Ok (d2, o2) /\ tcp_bytes o2 = [[x; 35]].
Proof.
  intros x Hx Hw. destruct (accepted_then_K x Hx Hw) as (d1 & o1 & E1 & _ & G1 & C1 & R1).
  destruct (packet_ok d1 501000 (Some [75]) 7 2 ([x; 35; 0] ++ skipn 3 (d_tx d1)) (fun o' => Tele (t_align (d_tel d1)) o' (t_cal (d_tel d1))) G1 C1) as (d2 & o' & o2 & E2 & _ & _ & _ & _ & _ & _ & B2).
  - reflexivity.
  - lia.
  - intros o'. unfold rx_after. cbn [P_Device.env_at e_tcp]. change (firstn 256 [75]) with [75]. cbn [length app]. rewrite R1. change (skipn 1 (rx_K x)) with (x :: repeat 0 254).
    apply handle_K; [exact Hx|apply G1|reflexivity].
  - exists d1, o1, d2, o2. split; [exact E1|]. split; [exact E2|]. rewrite B2. reflexivity.
Qed.

(** ** C89.  When read() reports an error (-1) the previous packet is executed once more: here the client gets the
    answer to its 'K' request a second time without having asked. *)
Theorem C89_read_error_repeats_request_refuted : forall x, 0 <= x < 256 -> c_wifi cfg = true ->
  exists d1 o1 d2 o2, history boot (connect_at 101000 7 ++ packet_at 301000 [75; x]) = Ok (d1, o1) /\ tcp_bytes o1 = [[x; 35]] /\
    history d1 (error_at 501000) = Ok (d2, o2) /\ tcp_bytes o2 = [[x; 35]].
Proof.
  intros x Hx Hw. destruct (accepted_then_K x Hx Hw) as (d1 & o1 & E1 & B1 & G1 & C1 & R1).
  destruct (packet_ok d1 501000 None 7 2 ([x; 35; 0] ++ skipn 3 (d_tx d1)) (fun o' => Tele (t_align (d_tel d1)) o' (t_cal (d_tel d1))) G1 C1) as (d2 & o' & o2 & E2 & _ & _ & _ & _ & _ & _ & B2).
  - reflexivity.
  - lia.
  - intros o'. unfold rx_after. cbn [P_Device.env_at e_tcp]. rewrite R1. apply handle_K; [exact Hx|apply G1|reflexivity].
  - exists d1, o1, d2, o2. split; [exact E1|]. split; [exact B1|]. split; [exact E2|]. rewrite B2. reflexivity.
Qed.

(** ** C84.  'J' does not tell whether an alignment exists.  A goto message of the binary protocol adds an alignment
    point and 'J' still answers 0. *)
Theorem C84_binary_sync_not_reported_refuted : forall x j, m9 = Ok x -> junk = Some j -> permuting N qsort -> c_wifi cfg = true ->
  exists d o, history boot (connect_at 101000 7 ++ packet_at 301000 (goto_message 0 0 0)) = Ok (d, o) /\
    numVertices (t_align (d_tel d)) = 1 /\ exists d', step d (Bluetooth [74]) = Ok (d', [BtOut [0; 35]]).
Proof.
  intros x j Hm Hj Hq Hw. pose proof (boot_good 101000 ltac:(lia)) as G0.
  destruct (connect_ok boot 101000 7 G0 eq_refl Hw) as (d1 & o1 & E1 & T1 & I1 & C1 & X1 & R1 & A1 & K1 & B1).
  assert (G1 : good d1 301000).
  { apply (good_next boot d1 101000); auto; try lia.
    - unfold sized. rewrite X1, R1. apply boot_sized.
    - rewrite A1. apply G0. }
  assert (Hrx : d_rx d1 = repeat 0 256) by (rewrite R1; reflexivity). assert (Htx : d_tx d1 = repeat 0 256) by (rewrite X1; reflexivity).
  set (e := env_at (301000 + 2) (Some (goto_message 0 0 0)) [] [] []).
  destruct G1 as (R & I & S & W).
  destruct (cycle100 N T pf oor lc qsort m9 junk ftext left_first cfg d1 301000 e R eq_refl I) as (i & p & o & Oi & Ol & E).
  set (D := d_after_read N left_first (set_imu N (set_timers N d1 (after3 (d_timers d1) 301000)) i) e p) in E.
  assert (HD : t_align (d_tel D) = align_init N) by exact A1. assert (HK : t_cal (d_tel D) = false) by exact K1.
  destruct (add_point N T qsort x j (d_tel D) (decode_expr N 0) (decode_expr N 0) (g_latitude (d_gnss D)) (lst N D) Hq) as (t' & Et & Wt & _ & Kt & Nt).
  { rewrite HD. apply WF_init. } { rewrite HD. cbn. lia. }
  rewrite <- Hm, <- Hj in Et. rewrite HD in Nt. cbn in Nt.
  set (rx := goto_message 0 0 0 ++ repeat 0 236).
  assert (Es : serve_tcp N T pf oor qsort m9 junk D e = Ok (set_tel N (set_tx N (set_rx N D rx) (d_tx D)) t', [])).
  { unfold serve_tcp. cbn [e e_tcp P_Device.env_at]. cbv zeta. change (firstn 256 (goto_message 0 0 0)) with (goto_message 0 0 0).
    change (d_rx D) with (d_rx d1). rewrite Hrx.
    change (goto_message 0 0 0 ++ skipn (length (goto_message 0 0 0)) (repeat 0 256)) with rx. change (Z.of_nat (length (goto_message 0 0 0))) with 20.
    cbn [Z.ltb Z.compare]. pose proof (handle_act N T pf oor qsort m9 junk (d_tel D) (d_gnss D) rx [] (d_tx D) 256) as H.
    rewrite app_nil_r in H. change (Z.of_nat (length rx)) with 256 in H. change (d_tel (set_rx N D rx)) with (d_tel D). change (d_gnss (set_rx N D rx)) with (d_gnss D). change (d_tx (set_rx N D rx)) with (d_tx D).
    rewrite H. change (act N (d_tel D) (d_gnss D) rx) with ANone. cbn [perform]. unfold reads8. destruct (arduino pf); (cbn [rx goto_message le_bytes app rd nth_error bind]; cbn [Z.ltb Z.compare];
    match goal with |- (do _ <- ?u; _) = _ => replace u with (@Ok (bool * unpack_out N) (true, Build_unpack_out (decode_expr N 0) (decode_expr N 0) 0)) by reflexivity end;
    cbn [bind]; change (lst N (set_tel N (set_tx N (set_rx N D rx) (d_tx D)) (d_tel D))) with (lst N D); cbn [set_tel set_tx set_rx d_tel d_gnss o_ra o_dec];
    change (lst N _) with (lst N D); rewrite Et; reflexivity). }
  assert (Ec : tcp_part N T pf oor qsort m9 junk D e = Ok (set_tel N (set_tx N (set_rx N D rx) (d_tx D)) t', [])).
  { unfold tcp_part. rewrite Es. replace (has_client D && e_up_read e) with true; [reflexivity|]. unfold has_client. change (d_client D) with (d_client d1). rewrite C1. reflexivity. }
  rewrite Ec in E. cbn [bind] in E. unfold mqtt_part in E.
  replace (if c_mqtt cfg then _ else _) with (Ok (set_tel N (set_tx N (set_rx N D rx) (d_tx D)) t', @nil out)) in E by (destruct (c_mqtt cfg); reflexivity).
  cbn [bind] in E. unfold conn_part in E. rewrite Hw in E. cbn [checkForConnections] in E. unfold checkForConnections in E. cbn [e P_Device.env_at e_pending] in E.
  eexists _, _. split. { rewrite history_app, E1. cbn [bind]. unfold packet_at. fold e. rewrite E. cbn [bind]. reflexivity. }
  cbn [set_led set_tel d_tel]. split; [exact Nt|].
  cbn [M_Main.step]. unfold onBluetoothData. cbn [set_led set_tel set_tx set_rx d_tel d_gnss d_tx].
  pose proof (handle_act N T pf oor qsort m9 junk t' (d_gnss D) [74] [] (d_tx D) 256) as H. rewrite app_nil_r in H.
  rewrite H. change (act N t' (d_gnss D) [74]) with (@AReply (pc (b2z (t_cal t')) ++ [35])). rewrite Kt, HK.
  cbn [perform b2z]. unfold reply. change (d_tx D) with (d_tx d1). rewrite Htx. eexists. reflexivity.
Qed.

(** A reset over MQTT removes every alignment point and 'J' still answers 1. *)
Theorem C84_reset_not_reported_refuted : forall x j, m9 = Ok x -> junk = Some j -> permuting N qsort -> c_mqtt cfg = true ->
  exists d o, history boot (Bluetooth (str "s00000000,00000000") :: messages_at 101000 [("home/appliance/telescope/control"%string, [49])]) = Ok (d, o) /\
    numVertices (t_align (d_tel d)) = 0 /\ stored (t_align (d_tel d)) = [] /\ exists d', step d (Bluetooth [74]) = Ok (d', [BtOut [1; 35]]).
Proof.
  intros x j Hm Hj Hq Hw.
  set (req := str "s00000000,00000000").
  destruct (add_point N T qsort x j (d_tel boot) (angle_of N 0) (if flt N (fZ N 270) (angle_of N 0) then fsub N (angle_of N 0) (fZ N 360) else angle_of N 0) (g_latitude (d_gnss boot)) (lst_of N (d_gnss boot)) Hq) as (t' & Et & Wt & _ & Kt & Nt).
  { apply WF_init. } { cbn. lia. }
  rewrite <- Hm, <- Hj in Et.
  set (tel := Tele (t_align t') (t_orient t') true). set (tx1 := [35; 0] ++ repeat 0 254).
  assert (E0 : step boot (Bluetooth req) = Ok (set_nexstar N (set_tel N (set_tx N boot tx1) tel) true, [BtOut [35]])).
  { cbn [M_Main.step]. unfold onBluetoothData. pose proof (handle_act N T pf oor qsort m9 junk (d_tel boot) (d_gnss boot) req [] (d_tx boot) 256) as H. rewrite app_nil_r in H. rewrite H.
    change (act N (d_tel boot) (d_gnss boot) req) with ASync. cbn [perform]. unfold do_sync. unfold field. change (read_upto req 1 8) with (Ok (repeat 48 8)). change (read_upto req 10 8) with (Ok (repeat 48 8)).
    cbn [bind]. replace (fst (strtoul pf 16 (repeat 48 8))) with 0 by (unfold strtoul, ulong_mod; destruct (w64 pf); reflexivity). cbv zeta. rewrite Et. cbn [bind]. reflexivity. }
  set (d1 := set_nexstar N (set_tel N (set_tx N boot tx1) tel) true) in *.
  assert (G1 : good d1 101000).
  { split; [|split; [apply imu_ok_init|split; [split; reflexivity|exact Wt]]]. unfold ready. change (d_timers d1) with (Timers 0 0 0 0 0 0 0). cbn [k_filter k_25ms k_100ms]. lia. }
  set (e := env_at (101000 + 2) (Some []) [("home/appliance/telescope/control"%string, [49])] [] []).
  destruct G1 as (R & I & S & W).
  destruct (cycle100 N T pf oor lc qsort m9 junk ftext left_first cfg d1 101000 e R eq_refl I) as (i & p & o & Oi & Ol & E).
  set (D := d_after_read N left_first (set_imu N (set_timers N d1 (after3 (d_timers d1) 101000)) i) e p) in E.
  assert (Ec : tcp_part N T pf oor qsort m9 junk D e = Ok (D, [])) by reflexivity.
  rewrite Ec in E. cbn [bind] in E. unfold mqtt_part in E. rewrite Hw in E.
  set (D2 := set_tx N (set_tel N D (Tele (clearAll N (t_align (d_tel D))) (t_orient (d_tel D)) (t_cal (d_tel D)))) (48 :: tl tx1)).
  assert (Em : mqtt_loop N D (e_msgs e) = Ok (D2, [MqttOut "home/appliance/telescope/control"%string [48]])) by reflexivity.
  rewrite Em in E. cbn [bind] in E. unfold conn_part in E.
  replace (if c_wifi cfg then _ else _) with (set_led N D2 (led_for N D2 e), @nil out) in E by (destruct (c_wifi cfg); reflexivity).
  eexists _, _. split.
  { cbn [M_Main.history]. rewrite E0. cbn [bind]. unfold messages_at. fold e. rewrite E. cbn [bind]. reflexivity. }
  split; [reflexivity|]. split; [reflexivity|]. eexists. reflexivity.
Qed.
End Device.
