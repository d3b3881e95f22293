(** C58, C85, C95, C96: replies, positions and starvation. *)
From Verif Require Import Base Num M_Libc P_Libc M_Checkbits M_Linalg M_Helper M_Alignment S_Alignment M_Telescope M_Stellarium M_Gnss M_NexStar S_NexStar P_NexStar M_Led M_Imu M_Main P_Sched P_Main P_Main2 Properties_Main.
From Coq Require Import Strings.String.
Notation length := List.length.

Section Device.
Context (N : Num) (T : Trig N) (pf : platform) (oor : conv_policy) (lc : libc N).
Context (qsort : list (vpair N) -> list (vpair N)) (m9 : res (F N)) (junk : option (F N * F N)).
Context (ftext : nat -> F N -> list Z) (left_first : bool) (cfg : config).
Notation dev := (dev N). Notation env := (env N). Notation event := (event N).
Notation boot := (boot N).
Notation loop := (loop N T pf oor lc qsort m9 junk ftext left_first cfg).
Notation step := (step N T pf oor lc qsort m9 junk ftext left_first cfg).
Notation history := (history N T pf oor lc qsort m9 junk ftext left_first cfg).
Notation ran := (ran N T pf oor lc qsort m9 junk ftext left_first cfg).

Definition tcp_bytes (o : list out) : list (list Z) := flat_map (fun x => match x with TcpOut b => [b] | _ => [] end) o.
Definition bt_bytes (o : list out) : list (list Z) := flat_map (fun x => match x with BtOut b => [b] | _ => [] end) o.
Lemma tcp_app a b : tcp_bytes (a ++ b) = tcp_bytes a ++ tcp_bytes b. Proof. apply flat_map_app. Qed.
Lemma bt_app a b : bt_bytes (a ++ b) = bt_bytes a ++ bt_bytes b. Proof. apply flat_map_app. Qed.
Lemma pub_no_bytes o : Forall is_pub o -> tcp_bytes o = [] /\ bt_bytes o = [].
Proof. induction 1 as [|x o Hx _ [I1 I2]]; [split; reflexivity|]. destruct x; try contradiction; split; assumption. Qed.

(** A device whose received-from-the-client part of one 100 ms task. *)
Lemma accepts_no_bytes c e : tcp_bytes (snd (accepts N c e)) = [] /\ bt_bytes (snd (accepts N c e)) = [].
Proof. unfold accepts. destruct (e_pending e) as [|p more]; [split; reflexivity|]. destruct (_ && _); [|split; reflexivity]. destruct more; split; reflexivity. Qed.

(** what a pass writes to the clients *)
Lemma pass_bytes d e d' o : loop d e = Ok (d', o) -> sized N d ->
  bt_bytes o = [] /\
  (tcp_bytes o = [] \/
   (the_task N d e = Task100ms /\ has_client d = true /\ e_up_read e = true /\ d_nexstar d' = true /\ exists b, tcp_bytes o = [b] /\ (1 <= length b <= 18)%nat) \/
   (the_task N d e = Task500ms /\ has_client d = true /\ e_up_read e = true /\ d_nexstar d = false /\ c_sensor cfg = true /\ d_gnssAvailable d' = true /\
    exists d1 q ty b, poll_gnss N pf oor lc (set_timers N d (snd (select (d_timers d) (e_now e)))) e = Ok d1 /\ d_gnss d' = d_gnss d1 /\
      calibratedEquatorial N T (d_tel d) (g_latitude (d_gnss d1)) (lst N d1) = Ok (q, ty) /\
      packPosition N oor (ra q) (dec q) 0 (d_tx d) 256 = Ok (24, b) /\ tcp_bytes o = [firstn 24 b])).
Proof.
  intros E S. pose proof E as E'. rewrite loop_run in E. set (d0 := set_timers N d (snd (select (d_timers d) (e_now e)))) in *. assert (S0 : sized N d0) by exact S.
  destruct (the_task N d e) eqn:Et; cbn [M_Main.run_task] in E; try (apply Ok2 in E; destruct E as [_ <-]; split; [reflexivity|left; reflexivity]).
  - unfold task_filter in E. destruct (c_sensor cfg); [|apply Ok2 in E; destruct E as [_ <-]; split; [reflexivity|left; reflexivity]].
    destruct (e_acc e) as [[x y] z]. match type of E with (do _ <- ?r; _) = _ => destruct r as [i|] end; [|discriminate]. apply Ok2 in E. destruct E as [_ <-]. split; [reflexivity|left; reflexivity].
  - unfold task_25ms in E. apply Ok2 in E. destruct E as [_ <-]. destruct (led_update _ _); (split; [reflexivity|left; reflexivity]).
  - apply task_100_frame in E; [|exact S0]. destruct E as (p & tx & rx & tel & nx & oa & ob & _ & _ & _ & E). cbv zeta in E.
    destruct E as (-> & -> & Po & _ & _ & Ha & R1 & _). apply pub_no_bytes in Po. destruct Po as [P1 P2].
    assert (K : tcp_bytes (snd (if c_wifi cfg then accepts N (d_client d0) e else (d_client d0, []))) = [] /\ bt_bytes (snd (if c_wifi cfg then accepts N (d_client d0) e else (d_client d0, []))) = []).
    { destruct (c_wifi cfg); [apply accepts_no_bytes|split; reflexivity]. }
    destruct K as [K1 K2]. rewrite !tcp_app, !bt_app, P1, P2, K1, K2, !app_nil_r. change (has_client d0) with (has_client d) in R1.
    destruct Ha as [[-> _]|(b & -> & L & ->)]; [split; [reflexivity|left; reflexivity]|]. split; [reflexivity|]. right. left.
    destruct (has_client d && e_up_read e) eqn:Ec; [|destruct (R1 eq_refl); discriminate]. apply andb_true_iff in Ec. destruct Ec as [Ec1 Ec2].
    repeat (split; [try reflexivity; try assumption|]). exists b. auto.
  - pose proof (task_500_frame _ _ _ _ _ _ _ _ _ _ _ E (proj2 S0)) as (d1 & q & ty & Ep & (tx & Etx & _) & E3 & E4).
    destruct (c_sensor cfg).
    + destruct (E4 eq_refl) as (Eq & o1 & o2 & d2 & H1 & -> & H2). apply pub_no_bytes in H2. destruct H2 as [H2 H3]. rewrite tcp_app, bt_app, H2, H3, !app_nil_r.
      apply send_position_frame in H1. destruct H1 as (_ & [->|((b & -> & Hb) & Hc & Hu & Hg & Hn)]); [split; [reflexivity|left; reflexivity]|].
      split; [reflexivity|]. right. right. destruct (poll_frame _ _ _ _ _ _ _ Ep (proj2 S0)) as (rx & g & Ed1 & _). rewrite Ed1 in Hc, Hn, Hb, Eq.
      repeat (split; [try reflexivity; try assumption|]).
      * subst d'. exact Hg.
      * exists d1, q, ty, b. split; [exact Ep|]. split; [subst d'; reflexivity|]. split; [rewrite Ed1; exact Eq|]. split; [exact Hb|reflexivity].
    + destruct (E3 eq_refl) as [-> _]. split; [reflexivity|left; reflexivity].
  - apply task_2s_frame in E; [|exact S0]. destruct E as (tx & rx & _ & _ & _ & E & _). clear E'. cut (tcp_bytes o = [] /\ bt_bytes o = []); [intros [H1 H2]; auto|].
    induction E as [|x o Hx _ IH]; [split; reflexivity|]. destruct IH as [I1 I2]. destruct Hx as [Hx| ->]; [destruct x; try contradiction|]; split; assumption.
Qed.

(** ** C58.  Without interleaving, replies reach the client that asked: a Bluetooth request is answered over
    Bluetooth with the reply that handleRequest computes for it, and a pass of the main loop never writes to
    Bluetooth. *)
Theorem C58_replies_go_to_the_requester : forall d ev d' o, step d ev = Ok (d', o) -> sized N d ->
  match ev with
  | Pass _ => bt_bytes o = []
  | Bluetooth req => tcp_bytes o = [] /\
      exists n tx tel, handleRequest N T pf oor qsort m9 junk (d_tel d) (d_gnss d) req (Z.of_nat (length req)) (d_tx d) 256 = Ok (n, tx, tel) /\
        o = (if 0 <? n then [BtOut (firstn (Z.to_nat n) tx)] else [])
  end.
Proof.
  intros d ev d' o E S. destruct ev as [e|req]; cbn [M_Main.step] in E.
  - apply pass_bytes in E; [|exact S]. tauto.
  - apply bluetooth_frame in E; [|exact S]. destruct E as (n & tx & tel & H & _ & _ & _ & -> & _). split; [destruct (0 <? n); reflexivity|]. exists n, tx, tel. auto.
Qed.

(** ** C96.  A position message is sent only by the 500 ms task, to a connected client, while GNSS data is
    available and no NexStar request has been answered; it is the 24-byte message for the calibrated position
    computed from the GNSS data of that moment. *)
Theorem C96_position_messages : forall d e d' o b, loop d e = Ok (d', o) -> sized N d -> In (TcpOut b) o -> length b = 24%nat ->
  the_task N d e = Task500ms /\ d_client d <> None /\ e_up_read e = true /\ d_nexstar d = false /\ d_gnssAvailable d' = true /\
  exists q ty, calibratedEquatorial N T (d_tel d) (g_latitude (d_gnss d')) (getLocalSiderealTimeDegrees N (g_time (d_gnss d')) (g_longitude (d_gnss d'))) = Ok (q, ty) /\
    exists buf, packPosition N oor (ra q) (dec q) 0 (d_tx d) 256 = Ok (24, buf) /\ b = firstn 24 buf.
Proof.
  intros d e d' o b E S Hi L. apply pass_bytes in E; [|exact S]. destruct E as [_ E].
  assert (Hb : In b (tcp_bytes o)) by (apply in_flat_map; eexists; split; [exact Hi|left; reflexivity]).
  destruct E as [E|[(_ & _ & _ & _ & b' & E & Lb)|(Et & Hc & Hu & Hn & _ & Hg & d1 & q & ty & buf & _ & Eg & Eq & Ep & E)]]; rewrite E in Hb.
  - contradiction.
  - destruct Hb as [->|[]]. lia.
  - destruct Hb as [<-|[]]. split; [exact Et|]. split; [unfold has_client in Hc; destruct (d_client d); congruence|]. split; [exact Hu|]. split; [exact Hn|]. split; [exact Hg|].
    exists q, ty. rewrite Eg. split; [exact Eq|]. exists buf. auto.
Qed.

(** ** C95.  Once any NexStar request has been answered, over Bluetooth or TCP, no position message is ever sent
    again, whoever connects later. *)
Lemma nexstar_stays evs : forall d d' o, history d evs = Ok (d', o) -> sized N d -> d_nexstar d = true ->
  d_nexstar d' = true /\ forall b, In (TcpOut b) o -> length b <> 24%nat.
Proof.
  induction evs as [|ev evs IH]; intros d d' o E S Hn; cbn [M_Main.history] in E.
  - apply Ok2 in E. destruct E as [<- <-]. split; [exact Hn|]. intros b [].
  - destruct (step d ev) as [[d1 o1]|] eqn:E1; [|discriminate]. cbn [bind] in E. destruct (history d1 evs) as [[d2 o2]|] eqn:E2; [|discriminate]. cbn [bind] in E.
    apply Ok2 in E. destruct E as [<- <-]. apply step_summary in E1 as S1; [|exact S]. destruct S1 as [S1 _].
    assert (G : d_nexstar d1 = true /\ forall b, In (TcpOut b) o1 -> length b <> 24%nat).
    { destruct ev as [e|req]; cbn [M_Main.step] in E1.
      - split.
        + destruct (task_eq_dec (the_task N d e) Task100ms) as [Et|Et].
          * rewrite loop_run, Et in E1. cbn [M_Main.run_task] in E1. apply task_100_frame in E1; [|exact S].
            destruct E1 as (p & tx & rx & tel & nx & oa & ob & _ & _ & _ & E1). cbv zeta in E1. destruct E1 as (-> & _ & _ & _ & _ & Ha & _). cbn [d_nexstar].
            destruct Ha as [[_ ->]|(b & _ & _ & ->)]; [exact Hn|reflexivity].
          * apply loop_summary in E1; [|exact S]. destruct E1 as (_ & _ & _ & E1 & _). destruct (E1 Et) as (_ & _ & _ & _ & -> & _). exact Hn.
        + intros b Hb L. destruct (C96_position_messages _ _ _ _ _ E1 S Hb L) as (_ & _ & _ & H & _). congruence.
      - apply bluetooth_frame in E1; [|exact S]. destruct E1 as (n & tx & tel & _ & _ & _ & -> & -> & _). destruct (0 <? n).
        + split; [reflexivity|]. intros b [Hb|[]]. discriminate.
        + split; [exact Hn|]. intros b []. }
    destruct G as [G1 G2]. destruct (IH _ _ _ E2 S1 G1) as [H1 H2]. split; [exact H1|]. intros b Hb. apply in_app_or in Hb. destruct Hb; auto.
Qed.
Lemma answered_nexstar evs : forall d d' o, history d evs = Ok (d', o) -> sized N d ->
  (exists b, In (BtOut b) o \/ (In (TcpOut b) o /\ length b <> 24%nat)) -> d_nexstar d' = true.
Proof.
  induction evs as [|ev evs IH]; intros d d' o E S Hx; cbn [M_Main.history] in E.
  - apply Ok2 in E. destruct E as [<- <-]. destruct Hx as (b & [[]|[[] _]]).
  - destruct (step d ev) as [[d1 o1]|] eqn:E1; [|discriminate]. cbn [bind] in E. destruct (history d1 evs) as [[d2 o2]|] eqn:E2; [|discriminate]. cbn [bind] in E.
    apply Ok2 in E. destruct E as [<- <-]. apply step_summary in E1 as S1; [|exact S]. destruct S1 as [S1 _].
    assert (C : (exists b, In (BtOut b) o1 \/ (In (TcpOut b) o1 /\ length b <> 24%nat)) \/ (exists b, In (BtOut b) o2 \/ (In (TcpOut b) o2 /\ length b <> 24%nat))).
    { destruct Hx as (b & [Hb|[Hb L]]); apply in_app_or in Hb; destruct Hb; eauto 6. }
    destruct C as [C|C]; [|eapply IH; eauto]. assert (Hn : d_nexstar d1 = true).
    { destruct C as (b & C). destruct ev as [e|req]; cbn [M_Main.step] in E1.
      - apply pass_bytes in E1; [|exact S]. destruct E1 as [EB E1]. destruct C as [C|[C L]].
        + assert (Hb : In b (bt_bytes o1)) by (apply in_flat_map; eexists; split; [exact C|left; reflexivity]). rewrite EB in Hb. contradiction.
        + assert (Hb : In b (tcp_bytes o1)) by (apply in_flat_map; eexists; split; [exact C|left; reflexivity]).
          destruct E1 as [E1|[(_ & _ & _ & Hn & _)|(_ & _ & _ & _ & _ & _ & dd & q & ty & buf & _ & _ & _ & Ep & E1)]]; [rewrite E1 in Hb; contradiction|exact Hn|].
          exfalso. rewrite E1 in Hb. destruct Hb as [<-|[]]. apply L. apply pack_length in Ep. rewrite firstn_length, Ep, (proj1 S). reflexivity.
      - apply bluetooth_frame in E1; [|exact S]. destruct E1 as (n & tx & tel & _ & _ & _ & -> & -> & _). destruct (0 <? n); [reflexivity|].
        destruct C as [[]|[[] _]]. }
    eapply nexstar_stays; eauto.
Qed.
Theorem C95_no_positions_after_nexstar_refuted : forall evs1 evs2 d1 o1 d2 o2, history boot evs1 = Ok (d1, o1) -> history d1 evs2 = Ok (d2, o2) ->
  (exists b, In (BtOut b) o1 \/ (In (TcpOut b) o1 /\ length b <> 24%nat)) ->
  forall b, In (TcpOut b) o2 -> length b <> 24%nat.
Proof.
  intros evs1 evs2 d1 o1 d2 o2 E1 E2 Hx. apply history_summary in E1 as S1; [|apply boot_sized]. destruct S1 as [S1 _].
  eapply nexstar_stays; eauto. eapply answered_nexstar; eauto. apply boot_sized.
Qed.

(** ** C85.  If the passes of the loop are more than 20 ms apart, only the filter ever runs. *)
Lemma slow_filter k times : forall r, (forall x, hd_error times = Some x -> 20000 < x - r < 4294967296) -> k_filter k = u32 r ->
  (forall i x y, nth_error times i = Some x -> nth_error times (S i) = Some y -> 20000 < y - x < 4294967296) ->
  Forall (fun t => t = Filter) (schedule k times).
Proof.
  revert k. induction times as [|x times IH]; intros k r H1 Hk H2; cbn [schedule]; [constructor|].
  assert (E : select k (u32 x) = (Filter, Timers (u32 x) (k_25ms k) (k_100ms k) (k_500ms k) (k_1s k) (k_2s k) (k_30s k))).
  { unfold select. rewrite Hk. rewrite (true_time_due x r 20000); [reflexivity| |]; specialize (H1 x eq_refl); lia. }
  rewrite E. constructor; [reflexivity|]. apply (IH _ x).
  - intros y Hy. destruct times as [|z times]; [discriminate|]. cbn in Hy. injection Hy as ->. apply (H2 O); reflexivity.
  - reflexivity.
  - intros i a b Ha Hb. apply (H2 (S i)); assumption.
Qed.
Theorem C85_slow_passes_starve_refuted : forall evs times d o, history boot evs = Ok (d, o) -> timed N evs times ->
  (forall x, hd_error times = Some x -> 20000 < x < 4294967296) ->
  (forall i x y, nth_error times i = Some x -> nth_error times (S i) = Some y -> 20000 < y - x < 4294967296) ->
  Forall (fun t => t = Filter) (ran boot evs).
Proof.
  intros evs times d o E Ht H1 H2. destruct (ran_schedule _ _ _ _ _ _ _ _ _ _ _ _ _ _ _ _ Ht E (boot_sized N)) as [R _]. rewrite R.
  apply (slow_filter _ _ 0); [intros x Hx; specialize (H1 x Hx); lia|reflexivity|exact H2].
Qed.
End Device.
