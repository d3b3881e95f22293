(** C123: a connected Stellarium client gets its position message in time. *)
From Verif Require Import Base Num M_Libc P_Libc M_Checkbits M_Linalg M_Helper M_Alignment S_Alignment M_Telescope M_Stellarium S_Stellarium P_Stellarium M_Gnss M_NexStar S_NexStar P_NexStar M_Led M_Imu M_Main P_Sched P_Main P_Main2 Properties_Stellarium Properties_Main Properties_Main3.
From Coq Require Import Strings.String.
Open Scope Z_scope.
Notation length := List.length.

Section Device.
Context (N : Num) (T : Trig N) (pf : platform) (oor : conv_policy) (lc : libc N).
Context (qsort : list (vpair N) -> list (vpair N)) (m9 : res (F N)) (junk : option (F N * F N)).
Context (ftext : nat -> F N -> list Z) (left_first : bool) (cfg : config).
Notation dev := (dev N). Notation env := (env N). Notation event := (event N).
Notation boot := (boot N).
Notation loop := (loop N T pf oor lc qsort m9 junk ftext left_first cfg).
Notation step := (M_Main.step N T pf oor lc qsort m9 junk ftext left_first cfg).
Notation history := (history N T pf oor lc qsort m9 junk ftext left_first cfg).
Notation ran := (ran N T pf oor lc qsort m9 junk ftext left_first cfg).

(** A NexStar request has been answered: something was sent over Bluetooth, or something that is not a
    24-byte position message over TCP. *)
Definition answered (o : list out) : Prop := exists b, In (BtOut b) o \/ (In (TcpOut b) o /\ length b <> 24%nat).
Lemma answered_app o1 o2 : answered (o1 ++ o2) <-> answered o1 \/ answered o2.
Proof.
  split.
  - intros (b & [H|[H L]]); apply in_app_or in H; destruct H as [H|H]; [left|right|left|right]; exists b; auto.
  - intros [(b & [H|[H L]])|(b & [H|[H L]])]; exists b; [left|right|left|right]; try split; try (apply in_or_app; auto); exact L.
Qed.
Lemma pub_not_accepted o c : Forall is_pub o -> ~ In (Accepted c) o.
Proof. intros H Hi. rewrite Forall_forall in H. exact (H _ Hi). Qed.
Lemma accepts_keeps c e : c <> None -> fst (accepts N c e) <> None.
Proof. intros H. unfold accepts. destruct (e_pending e); [exact H|]. destruct (_ && _); [exact H|discriminate]. Qed.
Lemma accepts_sets c e p : In (Accepted p) (snd (accepts N c e)) -> fst (accepts N c e) <> None.
Proof.
  unfold accepts. destruct (e_pending e) as [|q more]; [intros []|]. destruct (_ && _); [|intros _; discriminate].
  cbn [snd]. intros [H|H]; [discriminate|]. destruct more; [destruct H|]. destruct H as [H|[]]. discriminate.
Qed.
Lemma step_keeps d ev d' o : step d ev = Ok (d', o) -> sized N d ->
  (d_client d <> None -> d_client d' <> None) /\ (forall c, In (Accepted c) o -> d_client d' <> None) /\
  (d_nexstar d' = true -> d_nexstar d = true \/ answered o).
Proof.
  intros E S. destruct ev as [e|req]; cbn [M_Main.step] in E.
  - destruct (task_eq_dec (the_task N d e) Task100ms) as [Et|Et].
    + rewrite loop_run, Et in E. cbn [M_Main.run_task] in E. apply task_100_frame in E; [|exact S].
      destruct E as (p & tx & rx & tel & nx & oa & ob & _ & _ & _ & E). cbv zeta in E. destruct E as (-> & -> & Po & _ & _ & Ha & _). cbn [d_client d_nexstar set_timers].
      split; [destruct (c_wifi cfg); [apply accepts_keeps|auto]|]. split.
      * intros c Hi. apply in_app_or in Hi. destruct Hi as [Hi|Hi].
        { exfalso. destruct Ha as [[-> _]|(b & -> & _)]; [destruct Hi|]. destruct Hi as [Hi|[]]. discriminate. }
        apply in_app_or in Hi. destruct Hi as [Hi|Hi]; [exfalso; eapply pub_not_accepted; eauto|]. destruct (c_wifi cfg); [eapply accepts_sets; exact Hi|destruct Hi].
      * intros Hn. destruct Ha as [[-> ->]|(b & -> & Lb & ->)]; [left; exact Hn|]. right. exists b. right. split; [left; reflexivity|lia].
    + pose proof (loop_summary _ _ _ _ _ _ _ _ _ _ _ _ _ _ _ E S) as (_ & _ & _ & K & _). destruct (K Et) as (_ & _ & _ & -> & -> & _). split; [auto|]. split; [|auto].
      intros c Hi. exfalso. rewrite loop_run in E. set (d0 := set_timers N d (snd (select (d_timers d) (e_now e)))) in *. assert (S0 : sized N d0) by exact S.
      destruct (the_task N d e); cbn [M_Main.run_task] in E; try (apply Ok2 in E; destruct E as [_ <-]; destruct Hi; fail).
      * unfold task_filter in E. destruct (c_sensor cfg); [|apply Ok2 in E; destruct E as [_ <-]; destruct Hi].
        destruct (e_acc e) as [[x y] z]. match type of E with (do _ <- ?r; _) = _ => destruct r as [i|] end; [|discriminate]. apply Ok2 in E. destruct E as [_ <-]. destruct Hi.
      * unfold task_25ms in E. apply Ok2 in E. destruct E as [_ <-]. destruct (led_update _ _); cbn [In] in Hi; intuition discriminate.
      * contradiction.
      * pose proof (task_500_frame _ _ _ _ _ _ _ _ _ _ _ E (proj2 S0)) as (d1 & q & ty & _ & _ & E3 & E4). destruct (c_sensor cfg).
        { destruct (E4 eq_refl) as (_ & o1 & o2 & d2 & H1 & -> & H2). apply in_app_or in Hi. destruct Hi as [Hi|Hi]; [|eapply pub_not_accepted; eauto].
          apply send_position_frame in H1. destruct H1 as (_ & [->|((b & -> & _) & _)]); [destruct Hi|]. destruct Hi as [Hi|[]]. discriminate. }
        { destruct (E3 eq_refl) as [-> _]. destruct Hi. }
      * apply task_2s_frame in E; [|exact S0]. destruct E as (tx & rx & _ & _ & _ & E & _). rewrite Forall_forall in E. destruct (E _ Hi) as [K2|K2]; [exact K2|discriminate].
  - apply bluetooth_frame in E; [|exact S]. destruct E as (n & tx & tel & _ & _ & _ & -> & -> & _). destruct (0 <? n).
    + split; [auto|]. split; [intros c [H|[]]; discriminate|]. intros _. right. eexists. left. left. reflexivity.
    + split; [auto|]. split; [intros c []|]. auto.
Qed.
Lemma history_keeps evs : forall d d' o, history d evs = Ok (d', o) -> sized N d ->
  (d_client d <> None -> d_client d' <> None) /\ (forall c, In (Accepted c) o -> d_client d' <> None) /\
  (d_nexstar d' = true -> d_nexstar d = true \/ answered o).
Proof.
  induction evs as [|ev evs IH]; intros d d' o E S; cbn [M_Main.history] in E.
  - apply Ok2 in E. destruct E as [<- <-]. split; [auto|]. split; [intros c []|auto].
  - destruct (step d ev) as [[d1 o1]|] eqn:E1; [|discriminate]. cbn [bind] in E. destruct (history d1 evs) as [[d2 o2]|] eqn:E2; [|discriminate]. cbn [bind] in E.
    apply Ok2 in E. destruct E as [<- <-]. apply step_summary in E1 as S1; [|exact S]. destruct S1 as [S1 _].
    destruct (step_keeps _ _ _ _ E1 S) as (A1 & A2 & A3). destruct (IH _ _ _ E2 S1) as (B1 & B2 & B3).
    split; [auto|]. split.
    + intros c Hi. apply in_app_or in Hi. destruct Hi as [Hi|Hi]; eauto.
    + intros Hn. rewrite answered_app. destruct (B3 Hn) as [H|H]; [|auto]. destruct (A3 H); auto.
Qed.
(** the pass in which a task ran *)
Lemma ran_split t evs : t <> Idle -> forall d d' o, history d evs = Ok (d', o) -> In t (ran d evs) ->
  exists a e b da oa db ob oc, evs = a ++ Pass e :: b /\ history d a = Ok (da, oa) /\ the_task N da e = t /\ loop da e = Ok (db, ob) /\
    history db b = Ok (d', oc) /\ o = oa ++ ob ++ oc.
Proof.
  intros Ht. induction evs as [|ev evs IH]; intros d d' o E Hi; cbn [M_Main.history] in E; [destruct Hi|].
  destruct (step d ev) as [[d1 o1]|] eqn:E1; [|discriminate]. cbn [bind] in E. destruct (history d1 evs) as [[d2 o2]|] eqn:E2; [|discriminate]. cbn [bind] in E.
  apply Ok2 in E. destruct E as [<- <-]. cbn [Properties_Main.ran] in Hi. rewrite E1 in Hi. apply in_app_or in Hi. destruct Hi as [Hi|Hi].
  - destruct ev as [e|req]; [|destruct Hi]. destruct Hi as [Hi|[]]. cbn [M_Main.step] in E1.
    exists [], e, evs, d, [], d1, o1, o2. repeat split; auto.
  - destruct (IH _ _ _ E2 Hi) as (a & e & b & da & oa & db & ob & oc & -> & H1 & H2 & H3 & H4 & ->).
    exists (ev :: a), e, b, da, (o1 ++ oa), db, ob, oc. split; [reflexivity|]. split; [cbn [M_Main.history]; rewrite E1; cbn [bind]; rewrite H1; reflexivity|].
    repeat split; auto. rewrite <- app_assoc. reflexivity.
Qed.

(** the 500 ms task sends the message when it may *)
Lemma sends d e d' o : loop d e = Ok (d', o) -> sized N d -> the_task N d e = Task500ms -> c_sensor cfg = true -> d_client d <> None -> e_up_read e = true ->
  d_nexstar d = false -> d_gnssAvailable d' = true -> exists b, In (TcpOut b) o /\ length b = 24%nat.
Proof.
  intros E S Et Hc Hcl Hu Hn Hg. rewrite loop_run, Et in E. cbn [M_Main.run_task] in E. set (d0 := set_timers N d (snd (select (d_timers d) (e_now e)))) in *. assert (S0 : sized N d0) by exact S.
  pose proof (task_500_frame _ _ _ _ _ _ _ _ _ _ _ E (proj2 S0)) as (d1 & q & ty & Ep & (tx & Etx & _) & _ & E4).
  destruct (E4 Hc) as (_ & o1 & o2 & d2 & H1 & -> & H2). destruct (poll_frame _ _ _ _ _ _ _ Ep (proj2 S0)) as (rx & g & Ed1 & _).
  unfold send_position in H1. assert (C : has_client d1 && e_up_read e && d_gnssAvailable d1 && negb (d_nexstar d1) = true).
  { rewrite Hu. replace (d_gnssAvailable d1) with true by (rewrite <- Hg, Etx; reflexivity).
    replace (has_client d1) with true by (rewrite Ed1; change (true = has_client d); unfold has_client; destruct (d_client d); [reflexivity|contradiction]).
    replace (d_nexstar d1) with false by (rewrite Ed1; symmetry; exact Hn). reflexivity. }
  rewrite C in H1. rewrite (C04_only_conversions_can_fail N oor (ra q) (dec q) 0 (d_tx d1) 256) in H1; [|rewrite Ed1; destruct S0 as [L _]; cbn [set_rx set_gnss d_tx]; rewrite L; lia|lia].
  destruct (to_u32 N oor (encode_expr N (ra q))) as [w1|]; [|discriminate]. cbn [bind] in H1. destruct (to_u32 N oor (encode_expr N (dec q))) as [w2|]; [|discriminate]. cbn [bind] in H1.
  change (24 =? 24) with true in H1. cbv iota in H1. apply Ok2 in H1. destruct H1 as [_ <-].
  eexists. split; [left; reflexivity|]. rewrite firstn_length, app_length. change (length (current_position 0 w1 w2)) with 24%nat. lia.
Qed.

(** ** C123 *)
Theorem C123_position_in_time : forall evs1 times1 evs2 times2 d1 o1 d2 o2 c r t0,
  history boot evs1 = Ok (d1, o1) -> timed N evs1 times1 -> history d1 evs2 = Ok (d2, o2) -> timed N evs2 times2 ->
  (* a sensor, a client that is still there, no NexStar request answered, GNSS data available *)
  c_sensor cfg = true -> In (Accepted c) o1 -> (forall e, In (Pass e) evs2 -> e_up_read e = true) -> ~ answered (o1 ++ o2) ->
  (forall k dk ok, history d1 (firstn k evs2) = Ok (dk, ok) -> d_gnssAvailable dk = true) ->
  (* the task is due, and enough passes happen soon enough *)
  last_run Task500ms (ran boot evs1) times1 r -> r <= t0 -> t0 - r > 500000 -> nondecreasing t0 times2 ->
  (forall x, In x times2 -> x <= t0 + 20000) -> t0 + 20000 - r < 4294967296 -> (3 < length times2)%nat ->
  exists b, In (TcpOut b) o2 /\ length b = 24%nat.
Proof.
  intros evs1 times1 evs2 times2 d1 o1 d2 o2 c r t0 E1 T1 E2 T2 Hc Ha Hu Hn Hg Hl Hr Hd Ht Hx Hspan Hlen.
  assert (Hin : In Task500ms (ran d1 evs2)).
  { eapply C48_due_task_runs_soon with (t0 := t0) (r := r); eauto; try discriminate; try (cbn; lia). intros x Hi. specialize (Hx x Hi). lia. }
  pose proof (boot_sized N) as S0. apply history_summary in E1 as S1; [|exact S0]. destruct S1 as [S1 _].
  destruct (ran_split Task500ms evs2 ltac:(discriminate) _ _ _ E2 Hin) as (a & e & b & da & oa & db & ob & oc & -> & H1 & H2 & H3 & H4 & ->).
  apply history_summary in H1 as Sa; [|exact S1]. destruct Sa as [Sa _].
  destruct (history_keeps _ _ _ _ E1 S0) as (_ & K2 & K3). destruct (history_keeps _ _ _ _ H1 S1) as (L1 & _ & L3).
  destruct (sends da e db ob H3 Sa H2 Hc) as (m & Hm & Lm).
  - apply L1. eapply K2. exact Ha.
  - apply Hu. apply in_or_app. right. left. reflexivity.
  - destruct (d_nexstar da) eqn:En; [|reflexivity]. exfalso. apply Hn. rewrite !answered_app. destruct (L3 eq_refl) as [H|H]; [|auto]. destruct (K3 H) as [H'|H']; [discriminate|auto].
  - apply (Hg (length (a ++ [Pass e])) db (oa ++ ob)). change (Pass e :: b) with ([Pass e] ++ b). rewrite app_assoc, firstn_app, firstn_all, Nat.sub_diag. cbn [firstn]. rewrite app_nil_r.
    rewrite history_app, H1. cbn [bind M_Main.history M_Main.step]. rewrite H3. cbn [bind]. rewrite app_nil_r. reflexivity.
  - exists m. split; [|exact Lm]. apply in_or_app. right. apply in_or_app. left. exact Hm.
Qed.
End Device.
Print Assumptions C123_position_in_time.
(** The hypotheses are met: a client connects, a GNSS sentence arrives; half a second later four passes follow.  Shown: the
    tasks of the first part, whether a client was accepted and GNSS data available, the tasks of the second part, availability
    after each of its prefixes, and the lengths of the messages to the client (trigonometric functions constant, as above). *)
From Verif Require Import P_AlignWitness Properties_Publish P_Device Properties_Device2.
Definition here (t : Z) (pending serial : list Z) : event NumSF := Pass (env_at NumSF t (Some []) [] pending serial).
Definition first_part : list (event NumSF) := [here 1000000 [] []; here 1000001 [] []; here 1000002 [7] []; here 1000003 [] gsv].
Definition second_part : list (event NumSF) := [here 1500010 [] []; here 1500011 [] []; here 1500012 [] []; here 1500013 [] []].
Notation cfg0 := (Config true true false false).
Definition hist0 := history NumSF T0 esp32 strict_iso lcSF (insertion_sort NumSF) (Ok (fz 0)) (Some (fz 0, fz 0)) ft0 true cfg0.
Definition ran0 := ran NumSF T0 esp32 strict_iso lcSF (insertion_sort NumSF) (Ok (fz 0)) (Some (fz 0, fz 0)) ft0 true cfg0.
Definition shown :=
  match hist0 (boot NumSF) first_part with
  | Ok (d1, o1) =>
      match hist0 d1 second_part with
      | Ok (_, o2) => Some (ran0 (boot NumSF) first_part, existsb (fun x => match x with Accepted _ => true | _ => false end) o1, d_gnssAvailable d1,
          (ran0 d1 second_part, map (fun k => match hist0 d1 (firstn k second_part) with Ok (dk, _) => d_gnssAvailable dk | UB _ => false end) [0; 1; 2; 3; 4]%nat,
           flat_map (fun x => match x with TcpOut b => [List.length b] | BtOut _ => [0%nat] | _ => [] end) (o1 ++ o2)))
      | UB _ => None
      end
  | UB _ => None
  end.
Example C123_nonvacuous : shown = Some ([Filter; Task25ms; Task100ms; Task500ms], true, true,
  ([Filter; Task25ms; Task100ms; Task500ms], [true; true; true; true; true], [24; 24]%nat)).
Proof. vm_compute. reflexivity. Qed.
