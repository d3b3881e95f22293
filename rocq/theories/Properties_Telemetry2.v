(** C137-C140, continued: which sensor readings are told, what the alignment message counts, and that the messages are JSON. *)
From Verif Require Import Base Num M_Libc P_Libc M_Checkbits M_Linalg M_Helper M_Alignment S_Alignment P_Alignment P_AlignState P_AlignState2 P_AlignSmall P_AlignWitness M_Telescope M_Stellarium M_Gnss M_NexStar S_NexStar P_NexStar M_Led M_Imu P_Imu M_Main P_Sched P_Main P_Main2 P_Publish S_Json P_Json S_Telemetry P_Telemetry Properties_Publish P_Device S_Device P_Device2 P_Device3 Properties_Device3 Properties_Alignment Properties_Telemetry.
From Coq Require Import Strings.String Strings.Ascii.
Notation length := List.length.

(** ** JSON *)
Lemma plain_chars l : Forall (fun c => 32 <= c /\ c <> 34 /\ c <> 92) l -> j_chars l.
Proof. induction 1 as [|c l (H1 & H2 & H3) _ IH]; constructor; auto. Qed.
Lemma plain_string l : Forall (fun c => 32 <= c /\ c <> 34 /\ c <> 92) l -> j_string (34 :: l ++ [34]).
Proof. intros H. exists l. split; [apply plain_chars, H|reflexivity]. Qed.
Lemma ws_nil : ws []. Proof. constructor. Qed.
Lemma member w k w2 v l : ws w -> j_string k -> ws w2 -> j_value v -> j_members l -> j_members (w ++ k ++ 58 :: w2 ++ v ++ 44 :: l).
Proof. intros Hw Hk H2 Hv Hl. exact (jm_more w k [] w2 v [] l Hw Hk ws_nil H2 Hv ws_nil Hl). Qed.
Lemma member1 w k w2 v : ws w -> j_string k -> ws w2 -> j_value v -> j_members (w ++ k ++ 58 :: w2 ++ v).
Proof. intros Hw Hk H2 Hv. pose proof (jm_one w k [] w2 v [] Hw Hk ws_nil H2 Hv ws_nil) as H. rewrite app_nil_r in H. exact H. Qed.
Lemma element w v l : ws w -> j_value v -> j_elements l -> j_elements (w ++ v ++ 44 :: l).
Proof. intros Hw Hv Hl. exact (je_more w v [] l Hw Hv ws_nil Hl). Qed.
Lemma element1 w v : ws w -> j_value v -> j_elements (w ++ v).
Proof. intros Hw Hv. pose proof (je_one w v [] Hw Hv ws_nil) as H. rewrite app_nil_r in H. exact H. Qed.
Lemma value_json v : j_value v -> json v.
Proof. intros H. exists [], v, []. split; [constructor|]. split; [exact H|]. split; [constructor|]. rewrite app_nil_r. reflexivity. Qed.
Lemma object_json l : j_members l -> json (123 :: l ++ [125]). Proof. intros H. apply value_json, j_object, H. Qed.
Lemma array_json l : j_elements l -> json (91 :: l ++ [93]). Proof. intros H. apply value_json, j_array, H. Qed.
Lemma digit_plain l : Forall digit l -> Forall (fun c => 32 <= c /\ c <> 34 /\ c <> 92) l.
Proof. intros H. eapply Forall_impl; [|exact H]. intros c Hc. unfold digit in Hc. lia. Qed.
Lemma blank : ws [32]. Proof. constructor; [left; reflexivity|constructor]. Qed.

Lemma gnss_message_json N ftext (g : gnss N) t : (forall k v, j_number (ftext k v)) -> gnss_message N ftext g t -> json t.
Proof.
  intros Hf (year & mon & day & hour & mi & sec & us & vi & P1 & P2 & P3 & P4 & P5 & P6 & P7 & P8 & ->).
  pose proof (j_num _ (Hf 3%nat (g_latitude g))) as V1. pose proof (j_num _ (Hf 3%nat (g_longitude g))) as V2. pose proof (j_num _ (Hf 0%nat (g_altitude g))) as V3.
  pose proof (j_num _ (decimal_json _ _ P7)) as V4. pose proof (j_num _ (decimal_json _ _ P8)) as V5.
  assert (V0 : j_value (str (if g_valid g then "true" else "false"))) by (apply j_literal; destruct (g_valid g); vm_compute; auto).
  apply padded_number in P1, P2, P3, P4, P5, P6. destruct P1 as (_ & P1 & _), P2 as (_ & P2 & _), P3 as (_ & P3 & _), P4 as (_ & P4 & _), P5 as (_ & P5 & _), P6 as (_ & P6 & _).
  apply digit_plain in P1, P2, P3, P4, P5, P6.
  assert (D : forall a b c s, Forall (fun c => 32 <= c /\ c <> 34 /\ c <> 92) a -> Forall (fun c => 32 <= c /\ c <> 34 /\ c <> 92) b -> Forall (fun c => 32 <= c /\ c <> 34 /\ c <> 92) c -> 
     32 <= s /\ s <> 34 /\ s <> 92 -> j_value (34 :: (a ++ s :: b ++ s :: c) ++ [34])).
  { intros a b c s Ha Hb Hc Hs. apply j_str, plain_string. apply Forall_app. split; [exact Ha|]. constructor; [exact Hs|]. apply Forall_app. split; [exact Hb|]. constructor; [exact Hs|exact Hc]. }
  pose proof (D year mon day 45 P1 P2 P3 ltac:(lia)) as V6. pose proof (D hour mi sec 58 P4 P5 P6 ltac:(lia)) as V7. clear D P1 P2 P3 P4 P5 P6 P7 P8.
  set (la := ftext 3%nat (g_latitude g)) in *. set (lo := ftext 3%nat (g_longitude g)) in *. set (al := ftext 0%nat (g_altitude g)) in *. set (b := str (if g_valid g then _ else _)) in *.
  clearbody la lo al b. clear Hf.
  assert (K : forall s, Forall (fun c => 32 <= c /\ c <> 34 /\ c <> 92) (str s) -> j_string (34 :: str s ++ [34])) by (intros; apply plain_string; assumption).
  assert (M : j_members ([] ++ (34 :: str "valid" ++ [34]) ++ 58 :: [] ++ b ++ 44 :: [] ++ (34 :: str "lat" ++ [34]) ++ 58 :: [] ++ la ++ 44 :: [] ++ (34 :: str "lng" ++ [34]) ++ 58 :: [] ++ lo ++ 44 ::
     [] ++ (34 :: str "alt" ++ [34]) ++ 58 :: [] ++ al ++ 44 :: [] ++ (34 :: str "date" ++ [34]) ++ 58 :: [] ++ (34 :: (year ++ 45 :: mon ++ 45 :: day) ++ [34]) ++ 44 ::
     [] ++ (34 :: str "time" ++ [34]) ++ 58 :: [] ++ (34 :: (hour ++ 58 :: mi ++ 58 :: sec) ++ [34]) ++ 44 :: [] ++ (34 :: str "satUse" ++ [34]) ++ 58 :: [] ++ us ++ 44 ::
     [] ++ (34 :: str "satView" ++ [34]) ++ 58 :: [] ++ vi)).
  { repeat (apply member; [apply ws_nil|apply K; vm_compute; repeat constructor; discriminate|apply ws_nil|assumption|]).
    apply member1; [apply ws_nil|apply K; vm_compute; repeat constructor; discriminate|apply ws_nil|assumption]. }
  apply object_json in M. revert M. 
  repeat match goal with |- context [str ?s] => let b := eval vm_compute in (str s) in change (str s) with b end.
  repeat (rewrite <- ?app_assoc; cbn [app]). intros M. exact M.
Qed.
Lemma alignment_message_json n k ty t : alignment_message n k ty t -> json t.
Proof.
  intros (a & b & c & A & B & C & ->). apply signed_json, j_num in A, B, C.
  assert (K : forall s, Forall (fun c => 32 <= c /\ c <> 34 /\ c <> 92) (str s) -> j_string (34 :: str s ++ [34])) by (intros; apply plain_string; assumption).
  assert (M : j_members ([] ++ (34 :: str "vertices" ++ [34]) ++ 58 :: [] ++ a ++ 44 :: [] ++ (34 :: str "triangles" ++ [34]) ++ 58 :: [] ++ b ++ 44 :: [32] ++ (34 :: str "type" ++ [34]) ++ 58 :: [32] ++ c)).
  { repeat (apply member; [apply ws_nil|apply K; vm_compute; repeat constructor; discriminate|apply ws_nil|assumption|]).
    apply member1; [apply blank|apply K; vm_compute; repeat constructor; discriminate|apply blank|assumption]. }
  apply object_json in M. revert M.
  repeat match goal with |- context [str ?s] => let b := eval vm_compute in (str s) in change (str s) with b end.
  repeat (rewrite <- ?app_assoc; cbn [app]). intros M. exact M.
Qed.
Lemma matrix_message_json N ftext (m : mat N) : (forall k v, j_number (ftext k v)) -> json (matrix_message N ftext m).
Proof.
  intros Hf. pose proof (fun v => j_num _ (Hf 2%nat v)) as V. unfold matrix_message. cbn [map separated].
  assert (M : j_elements ([] ++ ftext 2%nat (m00 m) ++ 44 :: [32] ++ ftext 2%nat (m01 m) ++ 44 :: [32] ++ ftext 2%nat (m02 m) ++ 44 :: [32] ++ ftext 2%nat (m10 m) ++ 44 :: [32] ++ ftext 2%nat (m11 m) ++ 44 ::
     [32] ++ ftext 2%nat (m12 m) ++ 44 :: [32] ++ ftext 2%nat (m20 m) ++ 44 :: [32] ++ ftext 2%nat (m21 m) ++ 44 :: [32] ++ ftext 2%nat (m22 m))).
  { apply element; [apply ws_nil|apply V|]. repeat (apply element; [apply blank|apply V|]). apply element1; [apply blank|apply V]. }
  apply array_json in M. revert M. generalize (ftext 2%nat). intros f. change (str "[") with [91]. change (str ", ") with [44; 32]. change (str "]") with [93].
  repeat (rewrite <- ?app_assoc; cbn [app]). intros M. exact M.
Qed.

Section Device.
Context (N : Num) (T : Trig N) (pf : platform) (oor : conv_policy) (lc : libc N).
Context (qsort : list (vpair N) -> list (vpair N)) (x : F N) (j : F N * F N).
Context (ftext : nat -> F N -> list Z) (left_first : bool) (cfg : config).
Notation dev := (dev N). Notation env := (env N).
Notation step := (M_Main.step N T pf oor lc qsort (Ok x) (Some j) ftext left_first cfg).
Notation history := (M_Main.history N T pf oor lc qsort (Ok x) (Some j) ftext left_first cfg).
Notation boot := (boot N).
Notation commands := (commands N T pf oor lc qsort (Ok x) (Some j) ftext left_first cfg).

Lemma mqtt_loop_says msgs : forall d d' o, mqtt_loop N d msgs = Ok (d', o) -> Forall (fun m => m = ("home/appliance/telescope/control"%string, [48])) (to_server o).
Proof.
  induction msgs as [|[tp pl] msgs IH]; intros d d' o E; cbn [mqtt_loop] in E.
  - apply Ok2 in E. destruct E as [_ <-]. constructor.
  - destruct (mqttCallback N d tp pl) as [[d1 o1]|] eqn:E1; [|discriminate]. cbn [bind] in E. destruct (mqtt_loop N d1 msgs) as [[d2 o2]|] eqn:E2; [|discriminate]. cbn [bind] in E.
    apply Ok2 in E. destruct E as [_ <-]. rewrite to_server_app. apply Forall_app. split; [|eapply IH, E2]. clear E2 IH.
    unfold mqttCallback in E1. destruct pl as [|c pl]; [apply Ok2 in E1; destruct E1 as [_ <-]; constructor|].
    destruct (find_sub _ _); [|apply Ok2 in E1; destruct E1 as [_ <-]; constructor]. destruct (c =? 49); [|apply Ok2 in E1; destruct E1 as [_ <-]; constructor].
    cbv zeta in E1. destruct (wr _ 0 48) as [tx|] eqn:Ew; [|discriminate]. cbn [bind] in E1. apply Ok2 in E1. destruct E1 as [_ <-].
    destruct (d_tx _) as [|y l]; [discriminate|]. unfold wr in Ew. cbn in Ew. apply Ok1 in Ew. subst tx. constructor; [reflexivity|constructor].
Qed.

(** ** C140 *)
Definition is_points (tp : string) : Prop := tp = "home/appliance/telescope/actual"%string \/ tp = "home/appliance/telescope/reference"%string.
Theorem C140_published_json : permuting N qsort -> (forall k v, j_number (ftext k v)) ->
  forall evs d o0 ev d' o, history boot evs = Ok (d, o0) -> step d ev = Ok (d', o) ->
  forall tp payload, In (tp, payload) (to_server o) -> ~ is_points tp -> json payload.
Proof.
  intros Hq Hf evs d o0 ev d' o H E tp pl Hi Hp. assert (Sz : sized N d) by (eapply history_summary; [exact H|split; reflexivity]).
  destruct ev as [e|req].
  - destruct (the_task N d e) eqn:Et.
    + cbn [M_Main.step] in E. rewrite loop_run, Et in E. cbn [M_Main.run_task] in E. unfold task_filter in E. destruct (c_sensor cfg).
      * destruct (e_acc e) as [[? ?] ?]. match type of E with (do _ <- ?r; _) = _ => destruct r end; [|discriminate]. cbn [bind] in E. apply Ok2 in E. destruct E as [_ <-]. destruct Hi.
      * apply Ok2 in E. destruct E as [_ <-]. destruct Hi.
    + cbn [M_Main.step] in E. rewrite loop_run, Et in E. cbn [M_Main.run_task] in E. apply Ok2 in E. destruct E as [_ <-]. destruct (led_update _ _); destruct Hi.
    + cbn [M_Main.step] in E. rewrite loop_run, Et in E. cbn [M_Main.run_task] in E.
      apply task_100_parts in E. destruct E as (p & d1 & o1 & d2 & o2 & _ & E1 & E2 & _ & ->). rewrite !to_server_app in Hi. apply in_app_or in Hi. destruct Hi as [Hi|Hi].
      * exfalso. unfold tcp_part in E1. destruct (_ && _).
        -- apply serve_tcp_frame in E1; [|exact Sz]. destruct E1 as (tx & tel & nx & _ & _ & _ & _ & [[-> _]|(b & -> & _)] & _); destruct Hi.
        -- apply Ok2 in E1. destruct E1 as [_ <-]. destruct Hi.
      * apply in_app_or in Hi. destruct Hi as [Hi|Hi].
        -- unfold mqtt_part in E2. destruct (c_mqtt cfg); [|apply Ok2 in E2; destruct E2 as [_ <-]; destruct Hi].
           apply mqtt_loop_says in E2. rewrite Forall_forall in E2. apply E2 in Hi. injection Hi as -> ->. apply value_json, j_num. exists [], [48], [], []. 
           split; [left; reflexivity|]. split; [left; reflexivity|]. split; [left; reflexivity|]. split; [left; reflexivity|reflexivity].
        -- exfalso. unfold conn_part in Hi. rewrite check_accepts in Hi. destruct (c_wifi cfg); [|destruct Hi]. cbn [snd] in Hi. unfold accepts in Hi.
           destruct (e_pending e) as [|? more]; [destruct Hi|]. destruct (_ && _); [destruct more; destruct Hi|destruct Hi].
    + destruct (c_sensor cfg) eqn:Hc.
      * destruct (C138_telemetry N T pf oor lc qsort x j ftext left_first cfg Hq evs d o0 e d' o H E Et Hc) as (q & ty & m & about & _ & _ & Ha & Hs & _).
        rewrite Hs in Hi. destruct (c_mqtt cfg); [|destruct Hi]. apply filter_In in Hi. destruct Hi as [Hi _].
        apply alignment_message_json in Ha. pose proof (matrix_message_json N ftext m Hf) as Hm.
        assert (V : forall k v, json (ftext k v)) by (intros; apply value_json, j_num, Hf).
        unfold telemetry in Hi. cbv zeta in Hi. cbn [In] in Hi.
        repeat (destruct Hi as [Hi|Hi]; [apply pair2 in Hi; destruct Hi as [<- <-]; first [apply V|assumption|exfalso; apply Hp; first [left; reflexivity|right; reflexivity]]|]). destruct Hi.
      * exfalso. cbn [M_Main.step] in E. rewrite loop_run, Et in E. cbn [M_Main.run_task] in E. unfold task_500ms in E. destruct (poll_gnss _ _ _ _ _ _); [|discriminate]. cbn [bind] in E. rewrite Hc in E.
        apply Ok2 in E. destruct E as [_ <-]. destruct Hi.
    + cbn [M_Main.step] in E. rewrite loop_run, Et in E. apply Ok2 in E. destruct E as [_ <-]. destruct Hi.
    + destruct (C137_gnss_telemetry N T pf oor lc qsort x j ftext left_first cfg evs d o0 e d' o H E Et) as (text & Hg & H1 & H2). destruct (d_gnssAvailable d).
      * destruct (H1 eq_refl) as [Hs _]. rewrite Hs in Hi. destruct (c_mqtt cfg); [|destruct Hi]. apply filter_In in Hi. destruct Hi as [[Hi|[]] _]. apply pair2 in Hi. destruct Hi as [<- <-].
        eapply gnss_message_json; eassumption.
      * destruct (H2 eq_refl) as [Hs _]. rewrite Hs in Hi. destruct Hi.
    + cbn [M_Main.step] in E. rewrite loop_run, Et in E. apply Ok2 in E. destruct E as [_ <-]. destruct Hi.
    + cbn [M_Main.step] in E. rewrite loop_run, Et in E. apply Ok2 in E. destruct E as [_ <-]. destruct Hi.
  - exfalso. cbn [M_Main.step] in E. unfold onBluetoothData in E. destruct (handleRequest _ _ _ _ _ _ _ _ _ _ _ _ _) as [[[n tx] tel]|]; [|discriminate]. cbn [bind] in E. cbv zeta in E.
    destruct (0 <? n); apply Ok2 in E; destruct E as [_ <-]; destruct Hi.
Qed.

(** ** C139 *)
Theorem C139_alignment_message : permuting N qsort -> forall evs d o0 e d' o, history boot evs = Ok (d, o0) -> step d (Pass e) = Ok (d', o) ->
  the_task N d e = Task500ms -> c_sensor cfg = true -> c_mqtt cfg = true ->
  exists cs triangles kind about, commands boot evs cs /\
    (at_most 63 cs ->
       In ("home/appliance/telescope/alignment"%string, about) (to_server o) /\
       alignment_message (Z.of_nat (length (synchronised cs []))) triangles kind about /\
       match length (synchronised cs []) with
       | 0%nat => triangles = 0 /\ kind = NONE
       | 1%nat => triangles = 0 /\ kind = POINT
       | 2%nat => triangles = 0 /\ kind = LINE
       | _ => (triangles = 0 /\ kind = LINE) \/ (0 < triangles /\ (kind = TRIANGLE_IN \/ kind = TRIANGLE_OUT))
       end).
Proof.
  intros Hq evs d o0 e d' o H E Et Hc Hm. assert (Sz : sized N d) by (eapply history_summary; [exact H|split; reflexivity]).
  destruct (C138_telemetry N T pf oor lc qsort x j ftext left_first cfg Hq evs d o0 e d' o H E Et Hc) as (q & ty & m & about & Eq & _ & Ha & Hs & _). rewrite Hm in Hs.
  assert (Ht : d_tel d' = d_tel d). { cbn [M_Main.step] in E. apply loop_summary in E; [|exact Sz]. destruct E as (_ & _ & _ & E & _). apply E. rewrite Et. discriminate. }
  rewrite Ht in *. 
  destruct (C105_alignment_follows_commands N T pf oor lc qsort x j ftext left_first cfg evs d o0 H) as (cs & Hcs & Hr).
  exists cs, (Z.of_nat (length (tris (t_align (d_tel d))))), ty, about. split; [exact Hcs|]. intros H63.
  assert (HW : WF N (t_align (d_tel d))) by (eapply run_WF; [exact Hq|apply WF_init|exact Hr]). destruct HW as (B1 & _ & _ & _ & B2).
  pose proof (triangles_of_run N T qsort x j cs _ Hq Hr H63) as Ht3.
  assert (Hn : numVertices (t_align (d_tel d)) = Z.of_nat (length (synchronised cs []))).
  { rewrite <- (synchronised_spec N T). eapply C34_points_kept; [exact Hq|apply at_most_orders, H63|exact Hr]. }
  split; [|split].
  - rewrite Hs. apply filter_In. split; [do 8 right; left; reflexivity|].
    destruct Ha as (l1 & l2 & l3 & A1 & A2 & A3 & ->). unfold sendable. cbn [fst snd]. change (String.length "home/appliance/telescope/alignment") with 34%nat. 
    assert (G : forall n t, 0 <= n < 1000 -> signed n t -> (length t <= 3)%nat).
    { intros n t B [[_ Hd]|[C _]]; [|lia]. eapply decimal_length; [exact Hd|exact B|lia]. }
    apply G in A1, A2, A3; [|destruct ty; cbn; lia|lia|lia].
    apply Z.leb_le. rewrite !app_length. repeat match goal with |- context [length (str ?s)] => let b := eval vm_compute in (length (str s)) in change (length (str s)) with b end. lia.
  - rewrite <- Hn. exact Ha.
  - unfold calibratedEquatorial in Eq. destruct (getTransformationType N _ _) as [ty'|] eqn:Ety; [|discriminate]. cbn [bind] in Eq. destruct (getCalibratedOrientation N _ _); [|discriminate]. cbn [bind] in Eq.
    apply Ok2 in Eq. destruct Eq as [_ ->]. unfold getTransformationType, numTriangles in Ety. rewrite Hn in Ety, Ht3.
    destruct (tris (t_align (d_tel d))) as [|t l] eqn:Etr.
    + clear Ht3 Hn. change (Z.of_nat (length [])) with 0 in *. rewrite Z.eqb_refl in Ety. cbn [andb] in Ety. destruct (length (synchronised cs [])) as [|[|[|n]]].
      * apply Ok1 in Ety. subst ty. auto.
      * apply Ok1 in Ety. subst ty. auto.
      * apply Ok1 in Ety. subst ty. auto.
      * rewrite (proj2 (Z.eqb_neq _ 1)) in Ety by lia. rewrite (proj2 (Z.leb_le 2 _)) in Ety by lia. apply Ok1 in Ety. subst ty. auto.
    + inversion Ht3 as [|? ? Ht1 _]; subst. 
      assert (Hge : (3 <= length (synchronised cs []))%nat) by (destruct Ht1 as (T1 & T2 & T3 & T4 & T5 & T6); lia).
      destruct (length (synchronised cs [])) as [|[|[|n]]]; [lia|lia|lia|]. right. split; [cbn [length]; lia|].
      replace (Z.of_nat (length (t :: l)) =? 0) with false in Ety by (symmetry; apply Z.eqb_neq; cbn [length]; lia).
      replace (1 <=? Z.of_nat (length (t :: l))) with true in Ety by (symmetry; apply Z.leb_le; cbn [length]; lia). cbn [andb] in Ety.
      destruct (find_containing _ _ _ _) as [[i|]|]; [| |discriminate]; cbn [bind] in Ety; apply Ok1 in Ety; auto.
Qed.

(** ** C138: the readings told are the latest ones *)
Theorem C138_sensor_readings : forall evs d o0 ev d' o, history boot evs = Ok (d, o0) -> step d ev = Ok (d', o) ->
  (* the temperature is read in the 2 s task *)
  d_temperature d' = match ev with Pass e => match the_task N d e with Task2s => if c_sensor cfg then e_temp e else d_temperature d | _ => d_temperature d end | Bluetooth _ => d_temperature d end /\
  (* heading and pitch in the 100 ms task, and the tube points there *)
  match ev with
  | Pass e => match the_task N d e with
              | Task100ms => d_heading d' = filter_heading N (d_heading d) (heading_raw N left_first e) /\ measure_pitch N T d = Ok (d_pitch d') /\
                             t_orient (d_tel d') = Pt (f32 N (fadd N (d_heading d') (fZ N 0))) (d_pitch d')
              | _ => d_heading d' = d_heading d /\ d_pitch d' = d_pitch d /\ t_orient (d_tel d') = t_orient (d_tel d)
              end
  | Bluetooth _ => d_heading d' = d_heading d /\ d_pitch d' = d_pitch d /\ t_orient (d_tel d') = t_orient (d_tel d)
  end.
Proof.
  intros evs d o0 ev d' o H E. assert (Sz : sized N d) by (eapply history_summary; [exact H|split; reflexivity]). clear H.
  destruct ev as [e|req]; cbn [M_Main.step] in E.
  - pose proof (loop_summary _ _ _ _ _ _ _ _ _ _ _ _ _ _ _ E Sz) as (_ & _ & _ & F & _).
    assert (G : the_task N d e <> Task100ms -> d_heading d' = d_heading d /\ d_pitch d' = d_pitch d /\ t_orient (d_tel d') = t_orient (d_tel d)).
    { intros X. destruct (F X) as (_ & -> & -> & _ & _ & ->). auto. }
    rewrite loop_run in E. destruct (the_task N d e) eqn:Et; cbn [M_Main.run_task] in E; (split; [|try (apply G; discriminate)]); clear F G.
    + unfold task_filter in E. destruct (c_sensor cfg); [destruct (e_acc e) as [[? ?] ?]; match type of E with (do _ <- ?r; _) = _ => destruct r end; [|discriminate]; cbn [bind] in E|]; apply Ok2 in E; destruct E as [<- _]; reflexivity.
    + apply Ok2 in E. destruct E as [<- _]. reflexivity.
    + apply task_100_frame in E; [|exact Sz]. destruct E as (p & tx & rx & tel & nx & oa & ob & _ & _ & Em & E). cbv zeta in E. destruct E as (-> & _). reflexivity.
    + apply task_100_frame in E; [|exact Sz]. destruct E as (p & tx & rx & tel & nx & oa & ob & _ & _ & Em & E). cbv zeta in E. destruct E as (-> & _ & _ & _ & O & _). 
      split; [reflexivity|]. split; [exact Em|exact O].
    + apply task_500_state in E; [|exact Sz]. destruct E as (d1 & _ & (tx & -> & _) & _ & _ & g & rx & ->). reflexivity.
    + apply Ok2 in E. destruct E as [<- _]. reflexivity.
    + apply task_2s_frame in E; [|exact Sz]. destruct E as (tx & rx & _ & _ & -> & _). cbv zeta. destruct (c_sensor cfg); reflexivity.
    + apply Ok2 in E. destruct E as [<- _]. reflexivity.
    + apply Ok2 in E. destruct E as [<- _]. reflexivity.
  - apply bluetooth_frame in E; [|exact Sz]. destruct E as (n & tx & tel & _ & _ & _ & -> & _ & O & _). destruct (0 <? n); (split; [reflexivity|]; split; [reflexivity|]; split; [reflexivity|exact O]).
Qed.
End Device.
Print Assumptions C138_sensor_readings. Print Assumptions C139_alignment_message. Print Assumptions C140_published_json.

(** ** C138, exact arithmetic: altitude and azimuth told to the server name the direction of the tube after correction *)
From Coq Require Import Reals Lra.
From Verif Require Import S_Sky P_AlignR P_Sky Properties_Sky.
Theorem C138_direction_told : forall pf oor lc qsort x j ftext left_first cfg, permuting NumR qsort ->
  forall evs d o0 e d' o, M_Main.history NumR TrigR pf oor lc qsort (Ok x) (Some j) ftext left_first cfg (boot NumR) evs = Ok (d, o0) ->
  M_Main.step NumR TrigR pf oor lc qsort (Ok x) (Some j) ftext left_first cfg d (Pass e) = Ok (d', o) ->
  the_task NumR d e = Task500ms -> c_sensor cfg = true -> c_mqtt cfg = true ->
  exists corrected azimuth altitude, getCalibratedOrientation NumR (t_align (d_tel d')) (t_orient (d_tel d')) = Ok corrected /\
    vec azimuth altitude = vec (px corrected) (py corrected) /\ (0 <= azimuth < 360)%R /\ (-90 <= altitude <= 90)%R /\
    (sendable ("home/appliance/telescope/az"%string, ftext 3%nat azimuth) = true -> In ("home/appliance/telescope/az"%string, ftext 3%nat azimuth) (to_server o)) /\
    (sendable ("home/appliance/telescope/alt"%string, ftext 3%nat altitude) = true -> In ("home/appliance/telescope/alt"%string, ftext 3%nat altitude) (to_server o)).
Proof.
  intros pf oor lc qsort x j ftext left_first cfg Hq evs d o0 e d' o H E Et Hc Hm.
  destruct (C138_telemetry NumR TrigR pf oor lc qsort x j ftext left_first cfg Hq evs d o0 e d' o H E Et Hc) as (q & ty & m & about & Eq & _ & _ & Hs & _). rewrite Hm in Hs.
  unfold calibratedEquatorial in Eq. destruct (getTransformationType NumR _ _); [|discriminate]. cbn [bind] in Eq. destruct (getCalibratedOrientation NumR _ _) as [c|] eqn:Ec; [|discriminate]. cbn [bind] in Eq.
  apply Ok2 in Eq. destruct Eq as [<- _].
  destruct (C30_roundtrip_horizontal (px c) (py c) (g_latitude (d_gnss d')) (sidereal_degrees NumR d')) as (V & _).
  set (q := horizontalToEquatorial NumR TrigR (px c) (py c) (g_latitude (d_gnss d')) (sidereal_degrees NumR d')) in *.
  destruct (C29_normalised (ra q) (dec q) (g_latitude (d_gnss d')) (sidereal_degrees NumR d')) as (_ & B1 & B2).
  set (h := equatorialToHorizontal NumR TrigR (ra q) (dec q) (g_latitude (d_gnss d')) (sidereal_degrees NumR d')) in *.
  exists c, (az h), (alt h). split; [reflexivity|]. split; [exact V|]. split; [exact B1|]. split; [exact B2|].
  rewrite Hs. split; intros Hx; (apply filter_In; split; [|exact Hx]); [do 1 right; left; reflexivity|left; reflexivity].
Qed.
Print Assumptions C138_direction_told.

(** ** Non-vacuity *)
Open Scope Z_scope.
Definition text_of (p : list Z) : string := string_of_list_ascii (map (fun c => Ascii.ascii_of_nat (Z.to_nat c)) p).
(** C138, C139, C140: one star synchronised, 22 degrees read last; every number prints as 12.50 *)
Example C138_C139_C140_nonvacuous :
  match tele0 (sync (mkadd (fz 10) (fz 20) (fz 11) (fz 21))) with
  | Some t =>
      match M_Main.step NumSF T0 esp32 strict_iso lcSF (insertion_sort NumSF) (Ok (fz 0)) (Some (fz 0, fz 0)) ft0 true (Config true true true true) (dev500 t) (Pass env500) with
      | Ok (_, o) => Some (map (fun m => (fst m, text_of (snd m))) (to_server o), map fst (to_broker o))
      | UB _ => None
      end
  | None => None
  end = Some ([("home/appliance/telescope/alt", "12.50"); ("home/appliance/telescope/az", "12.50"); ("home/appliance/telescope/ra", "12.50"); ("home/appliance/telescope/dec", "12.50");
    ("home/appliance/telescope/lst", "12.50"); ("home/appliance/telescope/pitch", "12.50"); ("home/appliance/telescope/heading", "12.50"); ("home/appliance/telescope/temp", "12.50");
    ("home/appliance/telescope/alignment", "{""vertices"":1,""triangles"":0, ""type"": 1}"); ("home/appliance/telescope/actual", "[[12.50,12.50],]"); ("home/appliance/telescope/reference", "[[12.50,12.50],]");
    ("home/appliance/telescope/matrix", "[12.50, 12.50, 12.50, 12.50, 12.50, 12.50, 12.50, 12.50, 12.50]")],
   ["home/appliance/telescope/alt"; "home/appliance/telescope/az"; "home/appliance/telescope/ra"; "home/appliance/telescope/dec"; "home/appliance/telescope/lst"; "home/appliance/telescope/pitch"; "home/appliance/telescope/heading"; "home/appliance/telescope/temp";
    "home/appliance/telescope/alignment"; "home/appliance/telescope/actual"; "home/appliance/telescope/reference"; "home/appliance/telescope/matrix"])%string.
Proof. vm_compute. reflexivity. Qed.
(** C137: from power-on, a GNSS sentence is received in the 500 ms task and told 2 s later *)
Definition at_time (now : Z) (bytes : list Z) : env NumSF := Env NumSF now (fz 0, fz 0, fz 0) (0, 0) true true true None [] [] bytes true (fz 20).
Definition told (r : res (dev NumSF * list out)) : option (list (string * string)) := match r with Ok (_, o) => Some (map (fun m => (fst m, text_of (snd m))) (to_server o)) | UB _ => None end.
Definition quiet : config := Config false true true false.
Definition rmc : list Z := str ("$GPRMC,083055.00,A,4815.69961,N,01059.02625,E,2.158,,291221,,,A*79" ++ String (ascii_of_nat 13) (String (ascii_of_nat 10) EmptyString))%string.
Definition session137 : list (event NumSF) := map (fun k => Pass (at_time (3000000 + 10 * k) rmc)) (zseq 7).
Example C137_nonvacuous : told (M_Main.history NumSF T0 esp32 strict_iso lcSF (insertion_sort NumSF) (Ok (fz 0)) (Some (fz 0, fz 0)) ft0 true quiet (boot NumSF) session137) =
  Some [("home/appliance/telescope/gnss", "{""valid"":true,""lat"":12.50,""lng"":12.50,""alt"":12.50,""date"":""2021-12-29"",""time"":""08:30:55"",""satUse"":0,""satView"":0}")]%string.
Proof. vm_compute. reflexivity. Qed.
Example C140_numbers : forall k v, j_number (ft0 k v).
Proof.
  intros k v. exists [], [49; 50], [46; 53; 48], []. split; [left; reflexivity|]. split; [right; split; [split; [discriminate|repeat constructor; lia]|discriminate]|].
  split; [right; exists [53; 48]; split; [split; [discriminate|repeat constructor; lia]|reflexivity]|]. split; [left; reflexivity|reflexivity].
Qed.
