(** C54, C55, C56: messages, connections and packets. *)
From Verif Require Import Base Num M_Libc P_Libc M_Checkbits M_Linalg M_Helper M_Alignment S_Alignment M_Telescope M_Stellarium M_Gnss M_NexStar S_NexStar P_NexStar M_Led M_Imu M_Main P_Sched P_Main P_Main2.
From Coq Require Import Strings.String.
Notation length := List.length.

Lemma find_sub_app p b : forall a, find_sub p (a ++ p ++ b) <> None.
Proof.
  induction a as [|x a IH]; cbn [app]; [rewrite find_sub_head; discriminate|].
  cbn [find_sub]. destruct (is_prefix p (x :: a ++ p ++ b)); [discriminate|]. destruct (find_sub p (a ++ p ++ b)); [discriminate|contradiction].
Qed.

Section Device.
Context (N : Num) (T : Trig N) (pf : platform) (oor : conv_policy) (lc : libc N).
Context (qsort : list (vpair N) -> list (vpair N)) (m9 : res (F N)) (junk : option (F N * F N)).
Context (ftext : nat -> F N -> list Z) (left_first : bool) (cfg : config).
Notation dev := (dev N). Notation env := (env N). Notation event := (event N).
Notation boot := (boot N).
Notation loop := (loop N T pf oor lc qsort m9 junk ftext left_first cfg).
Notation step := (step N T pf oor lc qsort m9 junk ftext left_first cfg).
Notation history := (history N T pf oor lc qsort m9 junk ftext left_first cfg).

(** ** C54.  A message orders a reset: its topic contains the control topic, its payload starts with '1'. *)
Definition reset_message (m : string * list Z) : Prop :=
  (exists a b, str (fst m) = a ++ str "home/appliance/telescope/control" ++ b) /\ exists rest, snd m = 49 :: rest.
Lemma reset_message_iff m : reset_message m <-> orders_reset (fst m) (snd m) = true.
Proof.
  destruct m as [tp pl]. unfold reset_message, orders_reset. cbn [fst snd]. split.
  - intros [(a & b & E) (r & ->)]. pose proof (find_sub_app (str CONTROL_TOPIC) b a) as H. change (str CONTROL_TOPIC) with (str "home/appliance/telescope/control") in *.
    rewrite <- E in H. destruct (find_sub (str "home/appliance/telescope/control") (str tp)); [reflexivity|contradiction].
  - destruct (find_sub (str CONTROL_TOPIC) (str tp)) as [k|] eqn:Ef; [|discriminate]. destruct pl as [|c pl]; [discriminate|]. intros Hc. apply Z.eqb_eq in Hc. subst c.
    apply find_sub_split in Ef. destruct Ef as (a & b & E & _). split; [exists a, b; exact E|exists pl; reflexivity].
Qed.
(** One message: a reset message empties the alignment and is confirmed by "0"; every other one does nothing. *)
Theorem C54_reset_exactly : forall d m, length (d_tx d) = 256%nat ->
  (reset_message m -> exists d' o, mqttCallback N d (fst m) (snd m) = Ok (d', o) /\
     stored (t_align (d_tel d')) = [] /\ numVertices (t_align (d_tel d')) = 0 /\ tris (t_align (d_tel d')) = [] /\
     o = [MqttOut "home/appliance/telescope/control" [48]]) /\
  (~ reset_message m -> mqttCallback N d (fst m) (snd m) = Ok (d, [])).
Proof.
  intros d [tp pl] Ht. rewrite reset_message_iff. cbn [fst snd]. unfold orders_reset, mqttCallback. split.
  - destruct (find_sub (str CONTROL_TOPIC) (str tp)); [|discriminate]. destruct pl as [|c pl]; [discriminate|]. intros ->. cbv zeta. cbn [set_tel d_tx].
    destruct (d_tx d) as [|x0 l] eqn:El; [discriminate|]. cbn [wr upd bind].
    eexists _, _. split; [reflexivity|]. split; [reflexivity|]. split; [reflexivity|]. split; [reflexivity|]. reflexivity.
  - destruct (find_sub (str CONTROL_TOPIC) (str tp)).
    + destruct pl as [|c pl]; [reflexivity|]. destruct (c =? 49); [intros H; exfalso; apply H; reflexivity|reflexivity].
    + intros _. destruct pl; reflexivity.
Qed.
(** The confirmation, delivered back to the device, is not a reset message. *)
Theorem C54_confirmation_is_harmless : ~ reset_message ("home/appliance/telescope/control"%string, [48]).
Proof. intros [_ (r & E)]. discriminate. Qed.
(** A pass of the main loop: if MQTT is available and one of the delivered messages orders a reset, the
    alignment is empty afterwards; without such a message (and without a packet from the client) it is unchanged.
    Passes of other tasks never change it. *)
Theorem C54_pass : forall d e d' o, loop d e = Ok (d', o) -> sized N d ->
  (the_task N d e = Task100ms -> c_mqtt cfg = true -> Exists reset_message (e_msgs e) ->
     stored (t_align (d_tel d')) = [] /\ numVertices (t_align (d_tel d')) = 0 /\ tris (t_align (d_tel d')) = []) /\
  (the_task N d e = Task100ms -> c_mqtt cfg = false \/ ~ Exists reset_message (e_msgs e) -> has_client d = false \/ e_up_read e = false ->
     t_align (d_tel d') = t_align (d_tel d)) /\
  (the_task N d e <> Task100ms -> t_align (d_tel d') = t_align (d_tel d)).
Proof.
  intros d e d' o E S.
  assert (X : existsb (fun m => orders_reset (fst m) (snd m)) (e_msgs e) = true <-> Exists reset_message (e_msgs e)).
  { rewrite existsb_exists, Exists_exists. split; intros (m & H1 & H2); exists m; (split; [exact H1|]); apply reset_message_iff; exact H2. }
  assert (G : forall dd ee, fst (conn_part N cfg dd ee) = set_client N dd (d_client (fst (conn_part N cfg dd ee)))).
  { intros dd ee. unfold conn_part. destruct (c_wifi cfg); [rewrite check_accepts; reflexivity|destruct dd; reflexivity]. }
  split; [|split].
  - intros Et Hm Hx. apply X in Hx. rewrite loop_run, Et in E. cbn [M_Main.run_task] in E. apply task_100_parts in E.
    destruct E as (p & d1 & o1 & d2 & o2 & _ & E1 & E2 & -> & _). rewrite G. cbn [set_client set_led d_tel].
    assert (L : length (d_tx d1) = 256%nat).
    { unfold tcp_part in E1. destruct (_ && _); [apply serve_tcp_frame in E1; [|exact S]; destruct E1 as (tx & tel & nx & -> & L & _); exact L|apply Ok2 in E1; destruct E1 as [<- _]; apply S]. }
    unfold mqtt_part in E2. rewrite Hm in E2. apply mqtt_loop_frame in E2; [|exact L]. destruct E2 as (tx & _ & _ & -> & _). rewrite Hx. repeat split; reflexivity.
  - intros Et Hm Hc. rewrite loop_run, Et in E. cbn [M_Main.run_task] in E. apply task_100_parts in E.
    destruct E as (p & d1 & o1 & d2 & o2 & _ & E1 & E2 & -> & _). rewrite G. cbn [set_client set_led d_tel].
    assert (E1' : t_align (d_tel d1) = t_align (d_tel d) /\ length (d_tx d1) = 256%nat).
    { unfold tcp_part in E1. change (has_client (d_after_read N left_first (set_timers N d (snd (select (d_timers d) (e_now e)))) e p)) with (has_client d) in E1.
      replace (has_client d && e_up_read e) with false in E1 by (destruct Hc as [-> | ->]; [reflexivity|symmetry; apply andb_false_r]).
      apply Ok2 in E1. destruct E1 as [<- _]. split; [reflexivity|apply S]. }
    destruct E1' as [A L]. unfold mqtt_part in E2. destruct (c_mqtt cfg).
    + destruct Hm as [Hm|Hm]; [discriminate|]. apply mqtt_loop_frame in E2; [|exact L]. destruct E2 as (tx & _ & _ & -> & _).
      destruct (existsb _ (e_msgs e)); [exfalso; apply Hm, X; reflexivity|]. exact A.
    + apply Ok2 in E2. destruct E2 as [<- _]. exact A.
  - intros Et. apply loop_summary in E; [|exact S]. destruct E as (_ & _ & _ & E & _). destruct (E Et) as (_ & _ & _ & _ & _ & ->). reflexivity.
Qed.

(** ** C55.  Connections. *)
Definition accepted (o : list out) : list Z := flat_map (fun x => match x with Accepted c => [c] | _ => [] end) o.
Definition rejected (o : list out) : list Z := flat_map (fun x => match x with Rejected c => [c] | _ => [] end) o.
Lemma pub_no_conn o : Forall is_pub o -> accepted o = [] /\ rejected o = [].
Proof. induction 1 as [|x o Hx _ [I1 I2]]; [split; reflexivity|]. destruct x; try contradiction; split; assumption. Qed.
Lemma accepted_app a b : accepted (a ++ b) = accepted a ++ accepted b. Proof. apply flat_map_app. Qed.
Lemma rejected_app a b : rejected (a ++ b) = rejected a ++ rejected b. Proof. apply flat_map_app. Qed.
Lemma nothing_lost d e d' o : loop d e = Ok (d', o) -> sized N d -> the_task N d e <> Task100ms -> accepted o = [] /\ rejected o = [] /\ d_client d' = d_client d.
Proof.
  intros E S Et. apply loop_summary in E as K; [|exact S]. destruct K as (_ & _ & _ & K & _). destruct (K Et) as (_ & _ & _ & Kc & _).
  rewrite loop_run in E. set (d0 := set_timers N d (snd (select (d_timers d) (e_now e)))) in *. assert (S0 : sized N d0) by exact S.
  cut (accepted o = [] /\ rejected o = []); [tauto|]. clear K Kc.
  destruct (the_task N d e); cbn [M_Main.run_task] in E; try contradiction; try (apply Ok2 in E; destruct E as [_ <-]; split; reflexivity).
  - unfold task_filter in E. destruct (c_sensor cfg); [|apply Ok2 in E; destruct E as [_ <-]; split; reflexivity].
    destruct (e_acc e) as [[x y] z]. match type of E with (do _ <- ?r; _) = _ => destruct r as [i|] end; [|discriminate]. apply Ok2 in E. destruct E as [_ <-]. split; reflexivity.
  - unfold task_25ms in E. apply Ok2 in E. destruct E as [_ <-]. destruct (led_update _ _); split; reflexivity.
  - destruct (task_500_frame _ _ _ _ _ _ _ _ _ _ _ E (proj2 S0)) as (d1 & q & ty & _ & _ & E3 & E4). destruct (c_sensor cfg).
    + destruct (E4 eq_refl) as (_ & o1 & o2 & d2 & H1 & -> & H2). apply pub_no_conn in H2. destruct H2 as [H2 H3]. rewrite accepted_app, rejected_app, H2, H3, !app_nil_r.
      apply send_position_frame in H1. destruct H1 as (_ & [->|((b & -> & _) & _)]); split; reflexivity.
    + destruct (E3 eq_refl) as [-> _]. split; reflexivity.
  - apply task_2s_frame in E; [|exact S0]. destruct E as (tx & rx & _ & _ & _ & E & _). induction E as [|x o Hx _ IH]; [split; reflexivity|].
    destruct IH as [I1 I2]. destruct Hx as [Hx| ->]; [destruct x; try contradiction|]; split; assumption.
Qed.
(** While the held connection is up it is kept, and nobody is accepted. *)
Theorem C55_client_kept : forall d e d' o c, loop d e = Ok (d', o) -> sized N d -> d_client d = Some c -> e_up_accept e = true ->
  d_client d' = Some c /\ accepted o = [].
Proof.
  intros d e d' o c E S Hc Hu. destruct (task_eq_dec (the_task N d e) Task100ms) as [Et|Et].
  - rewrite loop_run, Et in E. cbn [M_Main.run_task] in E. apply task_100_frame in E; [|exact S].
    destruct E as (p & tx & rx & tel & nx & oa & ob & _ & _ & _ & E). cbv zeta in E. destruct E as (-> & -> & Po & _ & _ & Ha & _). cbn [d_client].
    change (d_client (set_timers N d (snd (select (d_timers d) (e_now e))))) with (d_client d). rewrite Hc. unfold accepts. rewrite Hu.
    apply pub_no_conn in Po. destruct Po as [Po _]. rewrite !accepted_app, Po.
    assert (Hoa : accepted oa = []) by (destruct Ha as [[-> _]|(b & -> & _)]; reflexivity). rewrite Hoa.
    destruct (c_wifi cfg), (e_pending e) as [|p0 more]; try (split; reflexivity). destruct more; split; reflexivity.
  - destruct (nothing_lost _ _ _ _ E S Et) as (A & _ & ->). auto.
Qed.
(** Once it is gone (or if there is none), the next 100 ms task takes the oldest waiting connection. *)
Theorem C55_next_client_accepted : forall d e d' o c more, loop d e = Ok (d', o) -> sized N d -> the_task N d e = Task100ms -> c_wifi cfg = true ->
  e_pending e = c :: more -> d_client d = None \/ e_up_accept e = false ->
  d_client d' = Some c /\ accepted o = [c] /\ rejected o = [].
Proof.
  intros d e d' o c more E S Et Hw Hp Hc. rewrite loop_run, Et in E. cbn [M_Main.run_task] in E. apply task_100_frame in E; [|exact S].
  destruct E as (p & tx & rx & tel & nx & oa & ob & _ & _ & _ & E). cbv zeta in E. destruct E as (-> & -> & Po & _ & _ & Ha & _). cbn [d_client].
  change (d_client (set_timers N d (snd (select (d_timers d) (e_now e))))) with (d_client d). rewrite Hw. unfold accepts. rewrite Hp.
  replace (match d_client d with Some _ => true | None => false end && e_up_accept e) with false by (destruct Hc as [-> | ->]; [reflexivity|symmetry; apply andb_false_r]).
  apply pub_no_conn in Po. destruct Po as [Po Po2]. rewrite !accepted_app, !rejected_app, Po, Po2.
  assert (Hoa : accepted oa = [] /\ rejected oa = []) by (destruct Ha as [[-> _]|(b & -> & _)]; split; reflexivity). destruct Hoa as [-> ->]. repeat split; reflexivity.
Qed.
(** While it is up, the 100 ms task turns away at most the two oldest waiting connections. *)
Theorem C55_others_turned_away : forall d e d' o, loop d e = Ok (d', o) -> sized N d -> the_task N d e = Task100ms -> c_wifi cfg = true ->
  d_client d <> None -> e_up_accept e = true -> rejected o = firstn 2 (e_pending e).
Proof.
  intros d e d' o E S Et Hw Hc Hu. rewrite loop_run, Et in E. cbn [M_Main.run_task] in E. apply task_100_frame in E; [|exact S].
  destruct E as (p & tx & rx & tel & nx & oa & ob & _ & _ & _ & E). cbv zeta in E. destruct E as (-> & -> & Po & _ & _ & Ha & _).
  change (d_client (set_timers N d (snd (select (d_timers d) (e_now e))))) with (d_client d). rewrite Hw. unfold accepts. rewrite Hu.
  apply pub_no_conn in Po. destruct Po as [_ Po2]. rewrite !rejected_app, Po2.
  assert (Hoa : rejected oa = []) by (destruct Ha as [[-> _]|(b & -> & _)]; reflexivity). rewrite Hoa. cbn [app].
  destruct (d_client d); [|congruence]. destruct (e_pending e) as [|p0 [|p1 more]]; reflexivity.
Qed.
(** Over every history: the connection served is the one accepted last. *)
Theorem C55_served_is_last_accepted : forall evs d o, history boot evs = Ok (d, o) ->
  d_client d = match rev (accepted o) with [] => None | c :: _ => Some c end.
Proof.
  assert (G : forall evs d0 d o, history d0 evs = Ok (d, o) -> sized N d0 ->
     d_client d = match rev (accepted o) with [] => d_client d0 | c :: _ => Some c end).
  { induction evs as [|ev evs IH]; intros d0 d o E S; cbn [M_Main.history] in E.
    - apply Ok2 in E. destruct E as [<- <-]. reflexivity.
    - destruct (step d0 ev) as [[d1 o1]|] eqn:E1; [|discriminate]. cbn [bind] in E. destruct (history d1 evs) as [[d2 o2]|] eqn:E2; [|discriminate]. cbn [bind] in E.
      apply Ok2 in E. destruct E as [<- <-]. apply step_summary in E1 as S1; [|exact S]. destruct S1 as [S1 _]. rewrite (IH _ _ _ E2 S1), accepted_app, rev_app_distr.
      destruct (rev (accepted o2)); [|reflexivity]. cbn [app].
      destruct ev as [e|req]; cbn [M_Main.step] in E1.
      + destruct (task_eq_dec (the_task N d0 e) Task100ms) as [Et|Et].
        * rewrite loop_run, Et in E1. cbn [M_Main.run_task] in E1. apply task_100_frame in E1; [|exact S].
          destruct E1 as (p & tx & rx & tel & nx & oa & ob & _ & _ & _ & E1). cbv zeta in E1. destruct E1 as (-> & -> & Po & _ & _ & Ha & _). cbn [d_client].
          change (d_client (set_timers N d0 (snd (select (d_timers d0) (e_now e))))) with (d_client d0).
          apply pub_no_conn in Po. destruct Po as [Po Po2]. rewrite !accepted_app, Po.
          assert (Hoa : accepted oa = []) by (destruct Ha as [[-> _]|(b & -> & _)]; reflexivity). rewrite Hoa. cbn [app].
          destruct (c_wifi cfg); [|reflexivity]. unfold accepts. destruct (e_pending e) as [|p0 more]; [reflexivity|].
          destruct (_ && _); [|reflexivity]. destruct more; reflexivity.
        * destruct (nothing_lost _ _ _ _ E1 S Et) as (-> & _ & ->). reflexivity.
      + apply bluetooth_frame in E1; [|exact S]. destruct E1 as (n & tx & tel & _ & _ & _ & -> & -> & _). destruct (0 <? n); reflexivity. }
  intros evs d o E. exact (G evs boot d o E (boot_sized N)).
Qed.

(** ** C56.  A packet settles its own meaning unless it is a 'K', 'P' or 's' request cut short. *)
Definition settled (packet : list Z) : Prop :=
  match packet with
  | 75 :: r => r <> []                 (* K *)
  | 80 :: r => (7 <= length r)%nat     (* P *)
  | 115 :: r => (17 <= length r)%nat   (* s *)
  | _ => True
  end.
Lemma settled_alt c r : settled (c :: r) <-> (c = 75 -> r <> []) /\ (c = 80 -> (7 <= length r)%nat) /\ (c = 115 -> (17 <= length r)%nat).
Proof.
  unfold settled. destruct (Z.eq_dec c 75) as [->|H1]; [split; [intros H; repeat split; congruence|intros (H & _); auto]|].
  destruct (Z.eq_dec c 80) as [->|H2]; [split; [intros H; repeat split; congruence|intros (_ & H & _); auto]|].
  destruct (Z.eq_dec c 115) as [->|H3]; [split; [intros H; repeat split; congruence|intros (_ & _ & H); auto]|].
  split; [intros _; repeat split; congruence|intros _].
  repeat match goal with |- match ?x with _ => _ end => destruct x; try exact I end; congruence.
Qed.
Lemma act_settled t g b s1 s2 : b <> [] -> settled b -> act N t g (b ++ s1) = act N t g (b ++ s2).
Proof.
  destruct b as [|c r]; [congruence|]. intros _ Hs. apply settled_alt in Hs. destruct Hs as (HK & HP & HS). cbn [app]. unfold act.
  assert (E1 : (c =? 75) && negb (match r ++ s1 with [] => true | _ => false end) = (c =? 75) && negb (match r ++ s2 with [] => true | _ => false end)).
  { destruct (Z.eqb_spec c 75); [|reflexivity]. destruct r; [exfalso; apply HK; auto|reflexivity]. }
  rewrite E1.
  assert (E2 : (c =? 75) = true -> match r ++ s1 with x :: _ => x | [] => 0 end = match r ++ s2 with x :: _ => x | [] => 0 end).
  { intros H. apply Z.eqb_eq in H. destruct r; [exfalso; apply HK; auto|reflexivity]. }
  assert (E3 : pP (c :: r ++ s1) = pP (c :: r ++ s2)).
  { destruct (Z.eqb_spec c 80) as [H|H]; [|apply Z.eqb_neq in H; rewrite !pP_not by exact H; reflexivity]. specialize (HP H).
    do 7 (destruct r as [|? r]; [cbn [length] in HP; lia|]). reflexivity. }
  assert (E4 : (c =? 115) && (17 <=? length (r ++ s1))%nat = (c =? 115) && (17 <=? length (r ++ s2))%nat).
  { destruct (Z.eqb_spec c 115) as [H|H]; [|reflexivity]. specialize (HS H). rewrite !app_length.
    destruct (Nat.leb_spec 17 (length r + length s1)); [|lia]. destruct (Nat.leb_spec 17 (length r + length s2)); [reflexivity|lia]. }
  rewrite E3, E4. destruct (c =? 75) eqn:Ec; [rewrite (E2 eq_refl)|]; reflexivity.
Qed.
Lemma reads8_ok mem : (8 <= length mem)%nat -> exists v, reads8 pf mem = Ok v.
Proof.
  intros H. do 8 (destruct mem as [|? mem]; [cbn [length] in H; lia|]). unfold reads8. destruct (arduino pf); eexists; reflexivity.
Qed.
Lemma perform_settled t g b s1 s2 resp max : b <> [] -> settled b -> (8 <= length (b ++ s1))%nat -> (8 <= length (b ++ s2))%nat ->
  perform N T pf oor qsort m9 junk t g (b ++ s1) resp max (act N t g (b ++ s1)) = perform N T pf oor qsort m9 junk t g (b ++ s2) resp max (act N t g (b ++ s2)).
Proof.
  intros Hb Hs L1 L2. rewrite (act_settled t g b s1 s2 Hb Hs). destruct (act N t g (b ++ s2)) eqn:Ea; cbn [perform]; try reflexivity.
  - apply act_sync in Ea. destruct Ea as (r & Er & Hr). destruct b as [|c b]; [congruence|]. cbn [app] in Er. injection Er as -> Er.
    apply settled_alt in Hs. destruct Hs as (_ & _ & HS). specialize (HS eq_refl).
    assert (Hsync : is_sync (115 :: b)) by (exists b; auto). rewrite !(do_sync_app N T pf qsort m9 junk t g (115 :: b)) by exact Hsync. reflexivity.
  - destruct (reads8_ok _ L1) as [v1 ->]. destruct (reads8_ok _ L2) as [v2 ->]. reflexivity.
Qed.
Lemma rd_app1 (b s : list Z) i : (i < length b)%nat -> rd (b ++ s) i = rd b i.
Proof. intros H. unfold rd. rewrite nth_error_app1 by exact H. reflexivity. Qed.
Lemma rd_some (l : list Z) i : (i < length l)%nat -> exists v, rd l i = Ok v.
Proof. intros H. unfold rd. destruct (nth_error l i) eqn:E; [eauto|]. apply nth_error_None in E. lia. Qed.
Lemma unpack_settled (b s1 s2 : list Z) o : b <> [] -> (2 <= length (b ++ s1))%nat -> (2 <= length (b ++ s2))%nat ->
  unpackPosition N false (b ++ s1) (Z.of_nat (length b)) o = unpackPosition N false (b ++ s2) (Z.of_nat (length b)) o.
Proof.
  intros Hb L1 L2. unfold unpackPosition. destruct b as [|c [|c1 r]]; [congruence| |].
  - destruct s1 as [|x s1]; [cbn in L1; lia|]. destruct s2 as [|y s2]; [cbn in L2; lia|]. cbn [app rd nth_error bind length].
    assert (K : forall z, (z <? 20) || (Z.of_nat 1 <? z) = true).
    { intros z. destruct (Z.ltb_spec z 20); [reflexivity|]. destruct (Z.ltb_spec (Z.of_nat 1) z); [reflexivity|lia]. }
    rewrite !K. reflexivity.
  - cbn [app rd nth_error bind]. set (len := u32 (c + Z.shiftl c1 8)). set (b := c :: c1 :: r).
    destruct ((len <? 20) || (Z.of_nat (length b) <? len)) eqn:Ec; [reflexivity|].
    apply orb_false_iff in Ec. destruct Ec as [Ec1 Ec2]. apply Z.ltb_ge in Ec1, Ec2.
    assert (Hl : (20 <= length b)%nat) by lia.
    change (c :: c1 :: r ++ s1) with (b ++ s1). change (c :: c1 :: r ++ s2) with (b ++ s2).
    rewrite !rd_app1 by lia. reflexivity.
Qed.

(** results that differ only in the receive buffer *)
Definition same_but_rx (r1 r2 : res (dev * list out)) : Prop :=
  match r1, r2 with
  | Ok (d1, o1), Ok (d2, o2) => o1 = o2 /\ d2 = set_rx N d1 (d_rx d2)
  | UB a, UB b => a = b
  | _, _ => False
  end.
Lemma same_refl r : same_but_rx r r.
Proof. destruct r as [[d o]|]; cbn; [split; [reflexivity|destruct d; reflexivity]|reflexivity]. Qed.
Lemma serve_settled d e packet rx1 rx2 : length rx1 = 256%nat -> length rx2 = 256%nat -> e_tcp e = Some packet -> settled (firstn 256 packet) ->
  same_but_rx (serve_tcp N T pf oor qsort m9 junk (set_rx N d rx1) e) (serve_tcp N T pf oor qsort m9 junk (set_rx N d rx2) e).
Proof.
  intros H1 H2 Et Hs. unfold serve_tcp. rewrite Et. cbv zeta. cbn [set_rx d_rx]. set (b := firstn 256 packet) in *.
  pose proof (firstn_le_length 256 packet) as Hb. fold b in Hb.
  set (s1 := skipn (length b) rx1). set (s2 := skipn (length b) rx2).
  assert (L1 : length (b ++ s1) = 256%nat) by (unfold s1; rewrite app_length, skipn_length; lia).
  assert (L2 : length (b ++ s2) = 256%nat) by (unfold s2; rewrite app_length, skipn_length; lia).
  destruct (Z.ltb_spec 0 (Z.of_nat (length b))) as [Hn|Hn]; [|cbn; split; reflexivity].
  assert (Hb0 : b <> []) by (intros ->; cbn in Hn; lia).
  pose proof (fun l => handle_act N T pf oor qsort m9 junk (d_tel d) (d_gnss d) l [] (d_tx d) 256) as HA.
  pose proof (HA (b ++ s1)) as A1. pose proof (HA (b ++ s2)) as A2. rewrite app_nil_r, L1 in A1. rewrite app_nil_r, L2 in A2. change (Z.of_nat 256) with 256 in *.
  cbn [set_rx d_tel d_gnss d_tx]. rewrite A1, A2. rewrite (perform_settled _ _ b s1 s2) by (try assumption; lia).
  destruct (perform N T pf oor qsort m9 junk (d_tel d) (d_gnss d) (b ++ s2) (d_tx d) 256 (act N (d_tel d) (d_gnss d) (b ++ s2))) as [[[n tx] tel]|u]; [|reflexivity].
  cbn [bind]. destruct (0 <? n). { cbn. split; reflexivity. }
  rewrite (unpack_settled b s1 s2) by (try assumption; lia).
  destruct (unpackPosition N false (b ++ s2) (Z.of_nat (length b)) _) as [[[|] uo]|u]; [| |reflexivity]; cbn [bind].
  - cbn [set_tel set_tx set_rx d_tel d_gnss]. unfold lst. cbn [d_gnss].
    destruct (addReferencePoint N T qsort m9 junk tel (o_ra uo) (o_dec uo) (g_latitude (d_gnss d)) _) as [t2|u]; [|reflexivity]. cbn. split; reflexivity.
  - cbn. split; reflexivity.
Qed.
Lemma mqtt_rx msgs : forall d x, mqtt_loop N (set_rx N d x) msgs = (do '(d', o) <- mqtt_loop N d msgs; Ok (set_rx N d' x, o)).
Proof.
  induction msgs as [|[tp pl] msgs IH]; intros d x; cbn [mqtt_loop]; [reflexivity|].
  assert (E : mqttCallback N (set_rx N d x) tp pl = (do '(d', o) <- mqttCallback N d tp pl; Ok (set_rx N d' x, o))).
  { unfold mqttCallback. destruct pl as [|c pl]; [reflexivity|]. destruct (find_sub _ _); [|reflexivity]. destruct (c =? 49); [|reflexivity]. cbv zeta.
    cbn [set_tel set_rx d_tx]. destruct (wr (d_tx d) 0 48); reflexivity. }
  rewrite E. destruct (mqttCallback N d tp pl) as [[d1 o1]|]; [|reflexivity]. cbn [bind]. rewrite IH.
  destruct (mqtt_loop N d1 msgs) as [[d2 o2]|]; reflexivity.
Qed.
(** Two devices that differ only in what earlier packets and GNSS data left in the receive buffer react in the
    same way to a settled packet: same bytes sent, same state (up to that buffer), or the same error. *)
Theorem C56_packet_alone_decides : forall d e packet rx1 rx2, length rx1 = 256%nat -> length rx2 = 256%nat ->
  the_task N d e = Task100ms -> e_tcp e = Some packet -> settled (firstn 256 packet) ->
  same_but_rx (loop (set_rx N d rx1) e) (loop (set_rx N d rx2) e).
Proof.
  intros d e packet rx1 rx2 H1 H2 Et Hp Hs. rewrite !loop_run. change (the_task N (set_rx N d rx1) e) with (the_task N d e). change (the_task N (set_rx N d rx2) e) with (the_task N d e).
  rewrite Et. cbn [M_Main.run_task]. cbn [set_rx d_timers].
  set (d0 := set_timers N d (snd (select (d_timers d) (e_now e)))).
  change (set_timers N (set_rx N d rx1) (snd (select (d_timers d) (e_now e)))) with (set_rx N d0 rx1).
  change (set_timers N (set_rx N d rx2) (snd (select (d_timers d) (e_now e)))) with (set_rx N d0 rx2).
  unfold task_100ms. change (measure_pitch N T (set_rx N d0 rx1)) with (measure_pitch N T d0). change (measure_pitch N T (set_rx N d0 rx2)) with (measure_pitch N T d0).
  destruct (measure_pitch N T d0) as [p|]; [|reflexivity]. cbn [bind]. cbv zeta.
  change (d_heading (set_rx N d0 rx1)) with (d_heading d0). change (d_heading (set_rx N d0 rx2)) with (d_heading d0).
  set (h := filter_heading N (d_heading d0) (heading_raw N left_first e)).
  set (d1 := set_tel N (set_attitude N d0 h p) (setOrientation N (d_tel d0) (f32 N (fadd N h (fZ N 0))) p)).
  change (set_tel N (set_attitude N (set_rx N d0 rx1) h p) (setOrientation N (d_tel (set_attitude N (set_rx N d0 rx1) h p)) (f32 N (fadd N h (fZ N 0))) p)) with (set_rx N d1 rx1).
  change (set_tel N (set_attitude N (set_rx N d0 rx2) h p) (setOrientation N (d_tel (set_attitude N (set_rx N d0 rx2) h p)) (f32 N (fadd N h (fZ N 0))) p)) with (set_rx N d1 rx2).
  change (has_client (set_rx N d1 rx1)) with (has_client d1). change (has_client (set_rx N d1 rx2)) with (has_client d1).
  assert (G : same_but_rx (if has_client d1 && e_up_read e then serve_tcp N T pf oor qsort m9 junk (set_rx N d1 rx1) e else Ok (set_rx N d1 rx1, []))
                          (if has_client d1 && e_up_read e then serve_tcp N T pf oor qsort m9 junk (set_rx N d1 rx2) e else Ok (set_rx N d1 rx2, []))).
  { destruct (_ && _); [eapply serve_settled; eassumption|cbn; split; reflexivity]. }
  revert G.
  generalize (if has_client d1 && e_up_read e then serve_tcp N T pf oor qsort m9 junk (set_rx N d1 rx1) e else Ok (set_rx N d1 rx1, [])).
  generalize (if has_client d1 && e_up_read e then serve_tcp N T pf oor qsort m9 junk (set_rx N d1 rx2) e else Ok (set_rx N d1 rx2, [])).
  intros r2 r1 G. destruct r1 as [[da oa]|ua], r2 as [[db ob]|ub]; cbn in G; try contradiction; [|subst; reflexivity].
  destruct G as [-> Gd]. cbn [bind]. set (x := d_rx db) in Gd. rewrite Gd. clear Gd. clearbody x. clear db.
  assert (G2 : same_but_rx (if c_mqtt cfg then mqtt_loop N da (e_msgs e) else Ok (da, [])) (if c_mqtt cfg then mqtt_loop N (set_rx N da x) (e_msgs e) else Ok (set_rx N da x, []))).
  { destruct (c_mqtt cfg); [|cbn; split; reflexivity]. rewrite mqtt_rx. destruct (mqtt_loop N da (e_msgs e)) as [[dd od]|]; cbn; [split; reflexivity|reflexivity]. }
  revert G2.
  generalize (if c_mqtt cfg then mqtt_loop N da (e_msgs e) else Ok (da, [])). generalize (if c_mqtt cfg then mqtt_loop N (set_rx N da x) (e_msgs e) else Ok (set_rx N da x, [])).
  intros r2 r1 G. destruct r1 as [[dc oc]|ua], r2 as [[dd od]|ub]; cbn in G; try contradiction; [|subst; reflexivity].
  destruct G as [-> Gd]. cbn [bind]. set (y := d_rx dd) in Gd. rewrite Gd. clear Gd. clearbody y. clear dd.
  change (led_for N (set_rx N dc y) e) with (led_for N dc e). destruct (c_wifi cfg); [|cbn; split; reflexivity].
  rewrite !check_accepts. cbn. split; reflexivity.
Qed.
End Device.
