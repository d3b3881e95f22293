(** C137-C140: what MQTT subscribers are told. *)
From Verif Require Import Base Num M_Libc P_Libc M_Checkbits M_Linalg M_Helper M_Alignment S_Alignment P_Alignment P_AlignState P_AlignState2 M_Telescope M_Stellarium M_Gnss M_NexStar S_NexStar P_NexStar M_Led M_Imu P_Imu M_Main P_Sched P_Main P_Main2 P_Publish S_Json P_Json S_Telemetry P_Telemetry Properties_Publish P_Device S_Device P_Device2 P_Device3 Properties_Device3.
From Coq Require Import Strings.String.
Notation length := List.length.

Section Device.
Context (N : Num) (T : Trig N) (pf : platform) (oor : conv_policy) (lc : libc N).
Context (qsort : list (vpair N) -> list (vpair N)) (x : F N) (j : F N * F N).
Context (ftext : nat -> F N -> list Z) (left_first : bool) (cfg : config).
Notation dev := (dev N). Notation env := (env N).
Notation step := (M_Main.step N T pf oor lc qsort (Ok x) (Some j) ftext left_first cfg).
Notation history := (M_Main.history N T pf oor lc qsort (Ok x) (Some j) ftext left_first cfg).
Notation boot := (boot N).
Notation commands := (commands N T pf oor lc qsort (Ok x) (Some j) ftext left_first cfg).

(** ** The messages.  [ftext k v] is what printf prints for v with k decimals. *)
(** {"valid":..,"lat":..,"lng":..,"alt":..,"date":"YYYY-MM-DD","time":"hh:mm:ss","satUse":..,"satView":..} *)
Definition gnss_message (g : gnss N) (t : list Z) : Prop :=
  exists year mon day hour min sec used view,
    padded 4 (unsigned (tm_year (g_time g))) year /\ padded 2 (unsigned (tm_mon (g_time g))) mon /\ padded 2 (unsigned (tm_mday (g_time g))) day /\
    padded 2 (unsigned (tm_hour (g_time g))) hour /\ padded 2 (unsigned (tm_min (g_time g))) min /\ padded 2 (unsigned (tm_sec (g_time g))) sec /\
    decimal (unsigned (g_satUsed g)) used /\ decimal (unsigned (g_satView g)) view /\
    t = str "{""valid"":" ++ str (if g_valid g then "true" else "false") ++
        str ",""lat"":" ++ ftext 3 (g_latitude g) ++ str ",""lng"":" ++ ftext 3 (g_longitude g) ++ str ",""alt"":" ++ ftext 0 (g_altitude g) ++
        str ",""date"":""" ++ year ++ str "-" ++ mon ++ str "-" ++ day ++ str """,""time"":""" ++ hour ++ str ":" ++ min ++ str ":" ++ sec ++
        str """,""satUse"":" ++ used ++ str ",""satView"":" ++ view ++ str "}".
(** {"vertices":..,"triangles":.., "type": ..} *)
Definition type_code (ty : ttype) : Z := match ty with NONE => 0 | POINT => 1 | LINE => 2 | TRIANGLE_OUT => 3 | TRIANGLE_IN => 4 end.
Definition alignment_message (vertices triangles : Z) (ty : ttype) (t : list Z) : Prop :=
  exists v n k, signed vertices v /\ signed triangles n /\ signed (type_code ty) k /\
    t = str "{""vertices"":" ++ v ++ str ",""triangles"":" ++ n ++ str ", ""type"": " ++ k ++ str "}".
(** the nine elements of the matrix in use, row by row *)
Fixpoint separated (l : list (list Z)) : list Z := match l with [] => [] | [a] => a | a :: l => a ++ str ", " ++ separated l end.
Definition matrix_message (m : mat N) : list Z :=
  str "[" ++ separated (map (ftext 2) [m00 m; m01 m; m02 m; m10 m; m11 m; m12 m; m20 m; m21 m; m22 m]) ++ str "]".
Definition points_message (ps : list (point N)) : list Z := str "[" ++ list_text N ftext ps ++ str "]".

Definition sidereal_degrees (d : dev) : F N := getLocalSiderealTimeDegrees N (g_time (d_gnss d)) (g_longitude (d_gnss d)).
(** what the 500 ms task tells: the position, where it is seen, the time and the sensors, in this order *)
Definition telemetry (d : dev) (q : equatorial N) (about : list Z) (m : mat N) : list (string * list Z) :=
  let h := equatorialToHorizontal N T (ra q) (dec q) (g_latitude (d_gnss d)) (sidereal_degrees d) in
  [("home/appliance/telescope/alt", ftext 3 (alt h)); ("home/appliance/telescope/az", ftext 3 (az h));
   ("home/appliance/telescope/ra", ftext 3 (ra q)); ("home/appliance/telescope/dec", ftext 3 (dec q));
   ("home/appliance/telescope/lst", ftext 3 (fdiv N (sidereal_degrees d) (fZ N 15)));
   ("home/appliance/telescope/pitch", ftext 3 (d_pitch d)); ("home/appliance/telescope/heading", ftext 3 (d_heading d));
   ("home/appliance/telescope/temp", ftext 1 (d_temperature d));
   ("home/appliance/telescope/alignment", about);
   ("home/appliance/telescope/actual", points_message (map (fun v => actual v) (stored (t_align (d_tel d)))));
   ("home/appliance/telescope/reference", points_message (map (fun v => reference v) (stored (t_align (d_tel d)))));
   ("home/appliance/telescope/matrix", matrix_message m)]%string.

Lemma gnss_text_says g : gnss_message g (gnss_text N ftext g).
Proof.
  pose proof (utext_spec 4 (tm_year (g_time g))) as Y. pose proof (utext_spec 2 (tm_mon (g_time g))) as M. pose proof (utext_spec 2 (tm_mday (g_time g))) as D.
  pose proof (utext_spec 2 (tm_hour (g_time g))) as H. pose proof (utext_spec 2 (tm_min (g_time g))) as I. pose proof (utext_spec 2 (tm_sec (g_time g))) as S.
  assert (P0 : forall n, decimal (unsigned n) (utext 0 n)). { intros n. destruct (utext_spec 0 n) as (d & Dd & ->). exact Dd. }
  pose proof (P0 (g_satUsed g)) as U. pose proof (P0 (g_satView g)) as V. clear P0.
  unfold gnss_message, gnss_text. cbv zeta.
  set (year := utext 4 _) in *. set (mon := utext 2 (tm_mon _)) in *. set (day := utext 2 (tm_mday _)) in *.
  set (hour := utext 2 (tm_hour _)) in *. set (mi := utext 2 (tm_min _)) in *. set (sec := utext 2 (tm_sec _)) in *.
  set (us := utext 0 (g_satUsed _)) in *. set (vi := utext 0 (g_satView _)) in *.
  exists year, mon, day, hour, mi, sec, us, vi.
  split; [exact Y|]. split; [exact M|]. split; [exact D|]. split; [exact H|]. split; [exact I|]. split; [exact S|]. split; [exact U|]. split; [exact V|].
  clearbody year mon day hour mi sec us vi. generalize (ftext 3 (g_latitude g)) (ftext 3 (g_longitude g)) (ftext 0 (g_altitude g)). intros la lo al. clear.
  replace (if g_valid g then str "true" else str "false") with (str (if g_valid g then "true" else "false")) by (destruct (g_valid g); reflexivity).
  generalize (str (if g_valid g then "true" else "false")). intros v. unfold key.
  repeat match goal with |- context [str ?s] => let b := eval vm_compute in (str s) in change (str s) with b end.
  rewrite <- ?app_assoc. cbn [app]. reflexivity.
Qed.
Lemma type_says ty : signed (type_code ty) (itext (type_number ty)).
Proof.
  assert (E : type_code ty = type_number ty) by (destruct ty; reflexivity). rewrite E. assert (B : 0 <= type_number ty <= 4) by (destruct ty; cbn [type_number]; lia).
  clear E. generalize dependent (type_number ty). intros k B. apply itext_spec. lia.
Qed.
Lemma alignment_text_says a ty : 0 <= numVertices a < 64 -> (length (tris a) <= 192)%nat ->
  alignment_message (numVertices a) (Z.of_nat (length (tris a))) ty (alignment_text N a ty).
Proof.
  intros B1 B2. unfold alignment_message, alignment_text. change (numTriangles a) with (Z.of_nat (length (tris a))).
  exists (itext (numVertices a)), (itext (Z.of_nat (length (tris a)))), (itext (type_number ty)).
  split; [apply itext_spec; lia|]. split; [apply itext_spec; lia|]. split; [apply type_says|].
  generalize (itext (numVertices a)) (itext (Z.of_nat (length (tris a)))) (itext (type_number ty)). intros l1 l2 l3.
  repeat match goal with |- context [str ?s] => let b := eval vm_compute in (str s) in change (str s) with b end.
  rewrite <- ?app_assoc. cbn [app]. reflexivity.
Qed.
Lemma matrix_text_says m : matrix_text N ftext m = matrix_message m.
Proof.
  unfold matrix_text, matrix_message. cbn [map separated]. change (str "[") with [91]. change (str ", ") with [44; 32]. change (str "]") with [93].
  rewrite <- ?app_assoc. reflexivity.
Qed.

Lemma publish_points_says d tp ps d' o : length (d_tx d) = 256%nat -> publish_points N ftext cfg d tp ps = Ok (d', o) ->
  (exists tx, d' = set_tx N d tx /\ length tx = 256%nat) /\
  to_server o = (if c_mqtt cfg then filter sendable [(tp, points_message ps)] else []) /\
  map fst (to_broker o) = (if c_broker cfg then [tp] else []).
Proof.
  intros L E. pose proof (publish_points_frame _ _ _ _ _ _ _ _ E) as [(tx0 & Ed & Lt) _].
  destruct (Nat.leb_spec (length (points_text N ftext ps)) 254) as [H|H]; [|rewrite publish_points_over in E by assumption; discriminate].
  rewrite publish_points_fits in E by assumption. set (tx := bracketed N ftext ps (d_tx d)) in *. unfold publish_tx in E.
  assert (Lm : Z.of_nat (length (points_message ps)) = 2 + Z.of_nat (length (points_text N ftext ps))).
  { unfold points_message. change (list_text N ftext ps) with (points_text N ftext ps). rewrite !app_length. change (length (str "[")) with 1%nat. change (length (str "]")) with 1%nat. lia. }
  assert (M : to_server (if c_mqtt cfg then mqtt_publish tp tx (2 + Z.of_nat (length (points_text N ftext ps))) else []) = (if c_mqtt cfg then filter sendable [(tp, points_message ps)] else []) /\ to_broker (if c_mqtt cfg then mqtt_publish tp tx (2 + Z.of_nat (length (points_text N ftext ps))) else []) = []).
  { destruct (c_mqtt cfg); [|split; reflexivity]. unfold mqtt_publish. cbn [filter]. unfold sendable. cbn [fst snd]. rewrite Lm. change (5 + 2) with 7.
    destruct (7 + Z.of_nat (String.length tp) + (2 + Z.of_nat (length (points_text N ftext ps))) <=? 256); [|split; reflexivity]. split; [|reflexivity]. cbn [to_server flat_map app]. do 2 f_equal.
    unfold tx, bracketed, points_message. change (list_text N ftext ps) with (points_text N ftext ps). generalize (points_text N ftext ps). intros l. 
    replace (Z.to_nat (2 + Z.of_nat (length l))) with (S (length l + 1)) by lia. cbn [firstn]. change (str "[") with [91]. change (str "]") with [93]. cbn [app]. f_equal.
    rewrite firstn_app_2. cbn [firstn]. reflexivity. }
  destruct M as [M1 M2]. split; [exists tx0; split; [exact Ed|congruence]|]. destruct (c_broker cfg).
  - destruct (cstring tx) as [s|]; [|discriminate]. cbn [bind] in E. apply Ok2 in E. destruct E as [_ <-].
    rewrite to_server_app, to_broker_app, M1, M2. cbn [to_server to_broker flat_map app map fst]. rewrite app_nil_r. auto.
  - cbn [bind] in E. apply Ok2 in E. destruct E as [_ <-]. rewrite app_nil_r, M1, M2. auto.
Qed.
Lemma filter_seq {A} (f : A -> bool) (b : bool) l1 l2 : (if b then filter f l1 else []) ++ (if b then filter f l2 else []) = (if b then filter f (l1 ++ l2) else []).
Proof. destruct b; [symmetry; apply filter_app|reflexivity]. Qed.
Lemma if_seq {A} (b : bool) (l1 l2 : list A) : (if b then l1 else []) ++ (if b then l2 else []) = (if b then l1 ++ l2 else []).
Proof. destruct b; reflexivity. Qed.

(** ** C138 *)
Definition printable (t : list Z) : Prop := Forall (fun c => c <> 0) t.
(** the texts for the built-in broker: everything but the two lists of points (C93), cut at 255 characters *)
Definition not_points (m : string * list Z) : bool := negb (String.eqb (fst m) "home/appliance/telescope/actual") && negb (String.eqb (fst m) "home/appliance/telescope/reference").
Lemma task_500_says d e d' o : task_500ms N T pf oor lc ftext cfg d e = Ok (d', o) -> sized N d -> c_sensor cfg = true ->
  0 <= numVertices (t_align (d_tel d)) < 64 -> (length (tris (t_align (d_tel d))) <= 192)%nat ->
  exists q ty m about, calibratedEquatorial N T (d_tel d') (g_latitude (d_gnss d')) (sidereal_degrees d') = Ok (q, ty) /\
    getTransformationMatrix N (t_align (d_tel d')) (t_orient (d_tel d')) = Ok m /\
    alignment_message (numVertices (t_align (d_tel d'))) (Z.of_nat (length (tris (t_align (d_tel d'))))) ty about /\
    to_server o = (if c_mqtt cfg then filter sendable (telemetry d' q about m) else []) /\
    map fst (to_broker o) = (if c_broker cfg then map fst (telemetry d' q about m) else []) /\
    ((forall k v, printable (ftext k v)) -> filter not_points (to_broker o) = (if c_broker cfg then filter not_points (map (fun m => (fst m, firstn 255 (snd m))) (telemetry d' q about m)) else [])).
Proof.
  intros E S Hc B1 B2. unfold task_500ms in E. destruct (poll_gnss N pf oor lc d e) as [d1|] eqn:Ep; [|discriminate]. cbn [bind] in E. rewrite Hc in E.
  assert (S1 : sized N d1 /\ d_tel d1 = d_tel d).
  { destruct (poll_frame _ _ _ _ _ _ _ Ep (proj2 S)) as (rx & g & -> & L & _). split; [split; [exact (proj1 S)|exact L]|reflexivity]. }
  destruct S1 as [S1 Ht]. rewrite <- Ht in B1, B2. clear Ep Ht S d. cbv zeta in E.
  destruct (calibratedEquatorial N T (d_tel d1) _ _) as [[q ty]|] eqn:Eq; [|discriminate]. cbn [bind] in E.
  set (h := equatorialToHorizontal N T (ra q) (dec q) (g_latitude (d_gnss d1)) (lst N d1)) in E.
  apply andthen_inv in E. destruct E as (d2 & o0 & r0 & H0 & E & ->). cbv beta in E.
  assert (Q0 : to_server o0 = [] /\ to_broker o0 = [] /\ exists t0, d2 = set_tx N d1 t0 /\ length t0 = 256%nat).
  { apply send_position_frame in H0. destruct H0 as [(t & -> & Lt) Ho]. destruct Ho as [->|((b & -> & _) & _)]; (split; [reflexivity|split; [reflexivity|exists t; split; [reflexivity|rewrite Lt; exact (proj1 S1)]]]). }
  clear H0. destruct Q0 as (A0 & C0 & t0 & -> & L0).
  Ltac says E H L A B C := apply andthen_inv in E; let dd := fresh "dd" in let oo := fresh "oo" in let rr := fresh "rr" in
    destruct E as (dd & oo & rr & H & E & ->); cbv beta in E; apply publish_text_says in H; [|exact L];
    let t := fresh "t" in let L' := fresh "L" in destruct H as ((t & -> & L') & A & B & C); rewrite ?set_tx_tx in E.
  says E H1 L0 A1 K1 C1. says E H2 L A2 K2 C2. says E H3 L1 A3 K3 C3. says E H4 L2 A4 K4 C4. says E H5 L3 A5 K5 C5. says E H6 L4 A6 K6 C6. says E H7 L5 A7 K7 C7. says E H8 L6 A8 K8 C8. says E H9 L7 A9 K9 C9.
  apply andthen_inv in E. destruct E as (da & oa & ra1 & Ha & E & ->). cbv beta in E. apply publish_points_says in Ha; [|exact L8]. destruct Ha as ((ta & -> & La) & Aa & Ca). rewrite ?set_tx_tx in E.
  apply andthen_inv in E. destruct E as (db & ob & rb & Hb & E & ->). cbv beta in E. apply publish_points_says in Hb; [|exact La]. destruct Hb as ((tb & -> & Lb) & Ab & Cb). rewrite ?set_tx_tx in E.
  destruct (getTransformationMatrix N _ _) as [m|] eqn:Em; [|discriminate]. cbn [bind] in E.
  apply publish_text_says in E; [|exact Lb]. destruct E as ((tc & -> & Lc) & Ac & Kc & Cc). rewrite ?set_tx_tx in *.
  exists q, ty, m, (alignment_text N (t_align (d_tel d1)) ty).
  split; [exact Eq|]. split; [exact Em|]. split; [apply alignment_text_says; [exact B1|exact B2]|].
  change (telemetry (set_tx N d1 tc) q (alignment_text N (t_align (d_tel d1)) ty) m) with (telemetry d1 q (alignment_text N (t_align (d_tel d1)) ty) m).
  unfold telemetry. cbv zeta. change (sidereal_degrees d1) with (lst N d1). fold h. rewrite matrix_text_says in Ac, Kc.
  split; [|split].
  - rewrite ?to_server_app, A0, A1, A2, A3, A4, A5, A6, A7, A8, A9, Aa, Ab, Ac. cbn [app]. rewrite !filter_seq. cbn [app]. reflexivity.
  - rewrite ?to_broker_app, ?map_app, C0, C1, C2, C3, C4, C5, C6, C7, C8, C9, Ca, Cb, Cc. cbn [app map]. rewrite !if_seq. cbn [app map fst]. reflexivity.
  - intros P. rewrite ?to_broker_app, ?filter_app, C0. 
    assert (Pf : forall k v, Forall (fun c => c <> 0) (ftext k v)) by exact P.
    assert (Pa : Forall (fun c => c <> 0) (alignment_text N (t_align (d_tel d1)) ty)).
    { destruct (alignment_text_says (t_align (d_tel d1)) ty B1 B2) as (l1 & l2 & l3 & D1 & D2 & D3 & ->).
      assert (G : forall n t, signed n t -> Forall (fun c => c <> 0) t).
      { intros n u [[_ (_ & F & _)]|(_ & d & (_ & F & _) & ->)]; [|constructor; [discriminate|]]; (eapply Forall_impl; [|exact F]); intros c Hd; unfold digit in Hd; lia. }
      repeat (apply Forall_app; split); try (eapply G; eassumption); vm_compute; repeat constructor; discriminate. }
    assert (Pm : Forall (fun c => c <> 0) (matrix_message m)).
    { unfold matrix_message. cbn [map separated]. repeat (apply Forall_app; split); try apply Pf; vm_compute; repeat constructor; discriminate. }
    cbn [set_tx d_pitch d_heading d_temperature d_tel] in K6, K7, K8, K9, Aa, Ab.
    specialize (K1 (Pf _ _)). specialize (K2 (Pf _ _)). specialize (K3 (Pf _ _)). specialize (K4 (Pf _ _)). specialize (K5 (Pf _ _)). specialize (K6 (Pf _ _)). specialize (K7 (Pf _ _)). specialize (K8 (Pf _ _)). specialize (K9 Pa). specialize (Kc Pm).
    assert (G : forall l tp, map fst l = (if c_broker cfg then [tp] else []) -> tp = topic "actual" \/ tp = topic "reference" -> filter not_points l = []).
    { intros l tp Hl Ht. destruct (c_broker cfg); destruct l as [|[u w] [|]]; try discriminate; [|reflexivity]. cbn [map fst] in Hl. injection Hl as ->. destruct Ht as [->| ->]; reflexivity. }
    rewrite (G _ _ Ca (or_introl eq_refl)), (G _ _ Cb (or_intror eq_refl)). rewrite K1, K2, K3, K4, K5, K6, K7, K8, K9, Kc.
    destruct (c_broker cfg); [|reflexivity]. cbn [map fst snd].
    repeat match goal with |- context [firstn 255 ?t] => generalize (firstn 255 t); intros ? end. reflexivity.
Qed.

(** C138: from power-on, every pass in which the 500 ms task runs (with a sensor) tells the server the state of
    the device after that pass; the built-in broker gets the same texts, except the lists of points (C93). *)
Theorem C138_telemetry : permuting N qsort -> forall evs d o0 e d' o, history boot evs = Ok (d, o0) -> step d (Pass e) = Ok (d', o) ->
  the_task N d e = Task500ms -> c_sensor cfg = true ->
  exists q ty m about, calibratedEquatorial N T (d_tel d') (g_latitude (d_gnss d')) (sidereal_degrees d') = Ok (q, ty) /\
    getTransformationMatrix N (t_align (d_tel d')) (t_orient (d_tel d')) = Ok m /\
    alignment_message (numVertices (t_align (d_tel d'))) (Z.of_nat (length (tris (t_align (d_tel d'))))) ty about /\
    to_server o = (if c_mqtt cfg then filter sendable (telemetry d' q about m) else []) /\
    map fst (to_broker o) = (if c_broker cfg then map fst (telemetry d' q about m) else []) /\
    ((forall k v, printable (ftext k v)) -> filter not_points (to_broker o) = (if c_broker cfg then filter not_points (map (fun m => (fst m, firstn 255 (snd m))) (telemetry d' q about m)) else [])).
Proof.
  intros Hq evs d o0 e d' o H E Et Hc. assert (Sz : sized N d) by (eapply history_summary; [exact H|split; reflexivity]).
  destruct (C105_alignment_follows_commands N T pf oor lc qsort x j ftext left_first cfg evs d o0 H) as (cs & _ & Hr).
  assert (HW : WF N (t_align (d_tel d))) by (eapply run_WF; [exact Hq|apply WF_init|exact Hr]). destruct HW as (B1 & _ & _ & _ & B2).
  cbn [M_Main.step] in E. rewrite loop_run, Et in E. cbn [M_Main.run_task] in E.
  eapply task_500_says; [exact E|exact Sz|exact Hc|exact B1|exact B2].
Qed.

(** ** C137 *)
Lemma task_2s_says d e d' o : task_2s N ftext cfg d e = Ok (d', o) -> sized N d ->
  exists text, gnss_message (d_gnss d) text /\
    (d_gnssAvailable d = true ->
       to_server o = (if c_mqtt cfg then filter sendable [("home/appliance/telescope/gnss"%string, text)] else []) /\
       (printable text -> to_broker o = (if c_broker cfg then [("home/appliance/telescope/gnss"%string, firstn 255 text)] else []))) /\
    (d_gnssAvailable d = false -> to_server o = [] /\ to_broker o = []).
Proof.
  intros E S. exists (gnss_text N ftext (d_gnss d)). split; [apply gnss_text_says|]. unfold task_2s in E.
  destruct (wr (d_tx d) 0 0) as [t1|] eqn:E1; [|discriminate]. cbn [bind] in E. destruct (wr t1 1 0) as [t2|] eqn:E2; [|discriminate]. cbn [bind] in E.
  destruct (wr (d_rx d) 0 1) as [r1|]; [|discriminate]. cbn [bind] in E. destruct (wr r1 1 2) as [r2|]; [|discriminate]. cbn [bind] in E. cbv zeta in E.
  apply wr_length in E1, E2. assert (L : length t2 = 256%nat) by (rewrite E2, E1; exact (proj1 S)).
  change (d_gnssAvailable (set_rx N (set_tx N d t2) r2)) with (d_gnssAvailable d) in E. change (d_gnss (set_rx N (set_tx N d t2) r2)) with (d_gnss d) in E.
  change (d_tx (set_rx N (set_tx N d t2) r2)) with t2 in E.
  assert (Q : forall b : bool, to_server (if b then [MqttConnect] else []) = [] /\ to_broker (if b then [MqttConnect] else []) = []) by (intros []; split; reflexivity).
  destruct (d_gnssAvailable d); (split; [intros Ha|intros Ha]); try discriminate.
  - set (text := gnss_text N ftext (d_gnss d)) in *. destruct (snprintf_text t2 text L) as (rest & Es & L'). rewrite Es in E. cbn [bind] in E.
    set (tx := firstn 255 text ++ 0 :: rest) in *.
    assert (M : to_server (if c_mqtt cfg then mqtt_publish (topic "gnss") tx (Z.of_nat (length text)) else []) = (if c_mqtt cfg then filter sendable [(topic "gnss", text)] else []) /\ to_broker (if c_mqtt cfg then mqtt_publish (topic "gnss") tx (Z.of_nat (length text)) else []) = []).
    { destruct (c_mqtt cfg); [|split; reflexivity]. unfold mqtt_publish. cbn [filter]. unfold sendable. cbn [fst snd]. change (5 + 2) with 7.
      destruct (Z.leb_spec (7 + Z.of_nat (String.length (topic "gnss")) + Z.of_nat (length text)) 256); [|split; reflexivity]. split; [|reflexivity]. cbn [to_server flat_map app]. do 2 f_equal.
      rewrite Nat2Z.id. unfold tx. rewrite (firstn_all2 (n := 255) text) by lia. rewrite firstn_app, firstn_all, Nat.sub_diag. cbn [firstn]. apply app_nil_r. }
    destruct M as [M1 M2]. destruct (c_broker cfg).
    + destruct (cstring tx) as [s|] eqn:Ec; [|discriminate]. cbn [bind] in E. apply Ok2 in E. destruct E as [_ <-].
      rewrite !to_server_app, !to_broker_app, M1, M2, (proj1 (Q _)), (proj2 (Q _)). cbn [to_server to_broker flat_map app]. rewrite app_nil_r. split; [reflexivity|].
      intros F. unfold cstring in Ec. destruct (find_char 0 tx); [|discriminate]. apply Ok1 in Ec. subst s. unfold tx. rewrite until_nul_app; [reflexivity|].
      apply Forall_forall. intros c Hd. unfold printable in F. rewrite Forall_forall in F. apply F. rewrite <- (firstn_skipn 255 text). apply in_or_app. left. exact Hd.
    + cbn [bind] in E. apply Ok2 in E. destruct E as [_ <-]. rewrite !to_server_app, !to_broker_app, M1, M2, (proj1 (Q _)), (proj2 (Q _)). rewrite !app_nil_r. cbn [to_server flat_map app]. auto.
  - cbn [bind] in E. apply Ok2 in E. destruct E as [_ <-]. cbn [app]. apply Q.
Qed.
Theorem C137_gnss_telemetry : forall evs d o0 e d' o, history boot evs = Ok (d, o0) -> step d (Pass e) = Ok (d', o) -> the_task N d e = Task2s ->
  exists text, gnss_message (d_gnss d) text /\
    (d_gnssAvailable d = true ->
       to_server o = (if c_mqtt cfg then filter sendable [("home/appliance/telescope/gnss"%string, text)] else []) /\
       (printable text -> to_broker o = (if c_broker cfg then [("home/appliance/telescope/gnss"%string, firstn 255 text)] else []))) /\
    (d_gnssAvailable d = false -> to_server o = [] /\ to_broker o = []).
Proof.
  intros evs d o0 e d' o H E Et. assert (Sz : sized N d) by (eapply history_summary; [exact H|split; reflexivity]).
  cbn [M_Main.step] in E. rewrite loop_run, Et in E. cbn [M_Main.run_task] in E. apply task_2s_says in E; [exact E|exact Sz].
Qed.
(** It is sent and not cut if latitude, longitude and altitude take at most 51 characters together. *)
Theorem C137_fits : forall g text, gnss_message g text -> (length (ftext 3 (g_latitude g)) + length (ftext 3 (g_longitude g)) + length (ftext 0 (g_altitude g)) <= 51)%nat ->
  sendable ("home/appliance/telescope/gnss"%string, text) = true /\ firstn 255 text = text.
Proof.
  intros g text (year & mon & day & hour & mi & sec & us & vi & P1 & P2 & P3 & P4 & P5 & P6 & P7 & P8 & ->) L.
  assert (G : forall w n t, padded w (unsigned n) t -> (w <= 10)%nat -> (length t <= 10)%nat).
  { intros w n t (d & D & ->) Hw. rewrite app_length, repeat_length. pose proof (decimal_length _ d 10 D) as Q.
    assert (0 <= unsigned n < 2 ^ 32) by (unfold unsigned; apply Z.mod_pos_bound; reflexivity). specialize (Q ltac:(change (Z.of_nat 10) with 10; lia) ltac:(lia)). lia. }
  apply G in P1, P2, P3, P4, P5, P6; try lia.
  assert (G0 : forall n t, decimal (unsigned n) t -> (length t <= 10)%nat).
  { intros n t D. pose proof (decimal_length _ t 10 D) as Q. assert (0 <= unsigned n < 2 ^ 32) by (unfold unsigned; apply Z.mod_pos_bound; reflexivity). apply Q; [change (Z.of_nat 10) with 10; lia|lia]. }
  apply G0 in P7, P8.
  match goal with |- sendable (_, ?t) = true /\ _ => set (text := t); assert (B : (length text <= 219)%nat) end.
  { unfold text. rewrite !app_length. 
    assert (V : (length (str (if g_valid g then "true" else "false")) <= 5)%nat) by (destruct (g_valid g); vm_compute; lia).
    repeat match goal with |- context [length (str ?s)] => lazymatch s with if _ then _ else _ => fail | _ => let b := eval vm_compute in (length (str s)) in change (length (str s)) with b end end. lia. }
  split; [|apply firstn_all2; lia]. unfold sendable. cbn [fst snd]. apply Z.leb_le. change (String.length "home/appliance/telescope/gnss") with 29%nat. lia.
Qed.
End Device.
Print Assumptions C137_gnss_telemetry. Print Assumptions C137_fits. Print Assumptions C138_telemetry.
