(** C124, C125: what becomes of the sentences of the GNSS receiver in the running device. *)
From Verif Require Import Base Num M_Libc P_Libc M_Checkbits M_Linalg M_Helper M_Alignment S_Alignment M_Telescope M_Stellarium M_Gnss S_Gnss P_Gnss P_Gnss2 P_Gnss3 M_NexStar M_Led M_Imu M_Main P_Sched P_Main P_Main2 P_Device Properties_Main Properties_Device2.
From Coq Require Import Strings.String.
Open Scope Z_scope.
Notation length := List.length.

Section Device.
Context (N : Num) (T : Trig N) (pf : platform) (oor : conv_policy) (lc : libc N).
Context (qsort : list (vpair N) -> list (vpair N)) (m9 : res (F N)) (junk : option (F N * F N)).
Context (ftext : nat -> F N -> list Z) (left_first : bool) (cfg : config).
Notation dev := (dev N). Notation env := (env N). Notation event := (event N).
Notation boot := (boot N).
Notation loop := (loop N T pf oor lc qsort m9 junk ftext left_first cfg).
Notation step := (M_Main.step N T pf oor lc qsort m9 junk ftext left_first cfg).
Notation history := (history N T pf oor lc qsort m9 junk ftext left_first cfg).
Notation feed := (feed N pf oor lc).

(** The bytes read from the receiver, one string per run of the 500 ms task (at most 255 bytes each). *)
Fixpoint reads (d : dev) (evs : list event) : list (list Z) :=
  match evs with
  | [] => []
  | ev :: evs =>
      (match ev with Pass e => if task_eq_dec (the_task N d e) Task500ms then [firstn 255 (e_serial e)] else [] | Bluetooth _ => [] end) ++
      match step d ev with Ok (d', _) => reads d' evs | UB _ => [] end
  end.
(** Complete sentences "$...\n" (each possibly after junk) and an unfinished rest. *)
Definition complete (s : list Z) (lines : list (list Z * list Z)) : Prop :=
  Forall line_ok lines /\ exists tail, ~ In 10 tail /\ s = List.concat (map line_text lines) ++ tail.

Lemma feed_any l : forall n g m g', feed l n g = Ok (m, g') -> forall k, exists m', feed l k g = Ok (m', g').
Proof.
  induction l as [|s l IH]; intros n g m g' E k; cbn [P_Gnss3.feed] in *.
  - injection E as _ <-. eauto.
  - destruct (fromNMEA N pf oor lc g s) as [[b g1]|]; [|discriminate]. cbn [bind] in *. eapply IH. exact E.
Qed.
Lemma feed_app l1 : forall l2 n g, feed (l1 ++ l2) n g = (do '(m, g1) <- feed l1 n g; feed l2 m g1).
Proof.
  induction l1 as [|s l1 IH]; intros l2 n g; cbn [app P_Gnss3.feed bind]; [reflexivity|].
  destruct (fromNMEA N pf oor lc g s) as [[b g1]|]; [|reflexivity]. cbn [bind]. apply IH.
Qed.
Lemma feed_pos l : forall n g m g', feed l n g = Ok (m, g') -> n <= m.
Proof.
  induction l as [|s l IH]; intros n g m g' E; cbn [P_Gnss3.feed] in *.
  - injection E as <- _. lia.
  - destruct (fromNMEA N pf oor lc g s) as [[b g1]|]; [|discriminate]. cbn [bind] in *. apply IH in E. destruct b; lia.
Qed.
Lemma step_gnss d ev d' o : step d ev = Ok (d', o) -> sized N d ->
  match ev with
  | Bluetooth _ => d_gnss d' = d_gnss d /\ d_gnssAvailable d' = d_gnssAvailable d /\ d_gnssTimeout d' = d_gnssTimeout d
  | Pass e => if task_eq_dec (the_task N d e) Task500ms
      then (firstn 255 (e_serial e) = [] -> d_gnss d' = d_gnss d) /\
           (firstn 255 (e_serial e) <> [] -> exists n, fromBuffer N pf oor lc (d_gnss d) (firstn 255 (e_serial e)) = Ok (n, d_gnss d') /\
              (n <= 0 -> d_gnssAvailable d' = d_gnssAvailable d /\ d_gnssTimeout d' = d_gnssTimeout d) /\
              (0 < n -> d_gnssAvailable d' = true /\ d_gnssTimeout d' = 20))
      else d_gnss d' = d_gnss d /\ d_gnssAvailable d' = d_gnssAvailable d /\ d_gnssTimeout d' = d_gnssTimeout d
  end.
Proof.
  intros E S. destruct ev as [e|req]; cbn [M_Main.step] in E.
  - destruct (task_eq_dec (the_task N d e) Task500ms) as [Et|Et].
    + rewrite loop_run, Et in E. cbn [M_Main.run_task] in E. set (d0 := set_timers N d (snd (select (d_timers d) (e_now e)))) in *. assert (S0 : sized N d0) by exact S.
      destruct (task_500_frame _ _ _ _ _ _ _ _ _ _ _ E (proj2 S0)) as (d1 & q & ty & Ep & (tx & -> & _) & _).
      destruct (poll_frame _ _ _ _ _ _ _ Ep (proj2 S0)) as (rx & g & -> & _ & H1 & H2).
      split; [intros H; exact (proj1 (H1 H))|]. intros H. destruct (H2 H) as (n & Ef). exists n. split; [exact Ef|].
      cbn [set_tx set_rx set_gnss d_gnssAvailable d_gnssTimeout]. change (d_gnss d0) with (d_gnss d) in *.
      assert (Ek : kind N pf oor lc d0 e = if 0 <? n then PollAccepted else PollNoise).
      { unfold kind. change (d_gnss d0) with (d_gnss d). destruct (firstn 255 (e_serial e)); [contradiction|]. rewrite Ef. reflexivity. }
      cbv delta [set_tx set_rx set_gnss] beta. cbn [d_gnssAvailable d_gnssTimeout]. rewrite Ek. destruct (Z.ltb_spec 0 n); (split; [lia || (intros _; split; reflexivity)|intros; lia || (split; reflexivity)]).
    + apply loop_summary in E; [|exact S]. destruct E as (_ & _ & _ & _ & K & _). destruct (K Et) as (-> & -> & ->). auto.
  - apply bluetooth_frame in E; [|exact S]. destruct E as (n & tx & tel & _ & _ & _ & -> & _). destruct (0 <? n); auto.
Qed.

(** ** C124 *)
Theorem C124_complete_sentences_used : forall evs d o lines, history boot evs = Ok (d, o) -> Forall2 complete (reads boot evs) lines ->
  exists n, feed (map line_sentence (List.concat lines)) 0 (d_gnss boot) = Ok (n, d_gnss d).
Proof.
  intros evs. pose proof (boot_sized N) as S. revert S. generalize boot. induction evs as [|ev evs IH]; intros d0 S d o lines E H; cbn [M_Main.history] in E.
  - apply Ok2 in E. destruct E as [<- _]. cbn [reads] in H. inversion H; subst. exists 0. reflexivity.
  - destruct (step d0 ev) as [[d1 o1]|] eqn:E1; [|discriminate]. cbn [bind] in E. destruct (history d1 evs) as [[d2 o2]|] eqn:E2; [|discriminate]. cbn [bind] in E.
    apply Ok2 in E. destruct E as [<- _]. apply step_summary in E1 as S1; [|exact S]. destruct S1 as [S1 _]. apply step_gnss in E1 as G; [|exact S].
    cbn [reads] in H. rewrite E1 in H. destruct ev as [e|req].
    + destruct (task_eq_dec (the_task N d0 e) Task500ms) as [Et|Et].
      * revert H G. generalize (firstn 255 (e_serial e)). intros s0 H G. inversion H as [|s l ss ls (Hok & tail & Ht & Hs) Hls]; subst s lines ss. destruct (IH d1 S1 d2 o2 ls E2 Hls) as (m & Em).
        cbn [List.concat]. rewrite map_app, feed_app.
        destruct s0 as [|b bs].
        { rewrite (proj1 G eq_refl) in Em. assert (l = []) as ->.
          { destruct l as [|[j0 b0] l]; [reflexivity|]. exfalso. apply (f_equal (@List.length Z)) in Hs. cbn [map List.concat] in Hs. unfold line_text in Hs. cbn [fst snd] in Hs. repeat (rewrite app_length in Hs || cbn [List.length] in Hs). clear -Hs. lia. }
          cbn [map P_Gnss3.feed bind]. exists m. exact Em. }
        destruct G as [_ G]. destruct (G ltac:(discriminate)) as (n & Ef & _). rewrite Hs, buffer_lines in Ef by assumption. rewrite Ef. cbn [bind].
        eapply feed_any. exact Em.
      * destruct G as [G _]. cbn [app] in H. destruct (IH d1 S1 d2 o2 lines E2 H) as (m & Em). rewrite G in Em. eauto.
    + destruct G as [G _]. cbn [app] in H. destruct (IH d1 S1 d2 o2 lines E2 H) as (m & Em). rewrite G in Em. eauto.
Qed.

(** ** C125 *)
(** A sentence that arrives in two parts, in two consecutive reads, is lost wherever it is cut: position, time and
    availability stay as they were.  In one read it is used. *)
Lemma split_no_effect a b body g : a ++ b = 36 :: body ++ [10] -> ~ In 36 body -> ~ In 10 body -> a <> [] -> b <> [] ->
  fromBuffer N pf oor lc g a = Ok (0, g) /\ fromBuffer N pf oor lc g b = Ok (0, g).
Proof.
  intros E H1 H2 Ha Hb. destruct a as [|x a]; [contradiction|]. cbn [app] in E. injection E as -> E.
  assert (Ha10 : ~ In 10 a /\ ~ In 36 b).
  { destruct (@exists_last _ b Hb) as (b' & y & ->). rewrite app_assoc in E. apply app_inj_tail in E. destruct E as [E ->].
    split; [intros Hi; apply H2; rewrite <- E; apply in_or_app; left; exact Hi|].
    intros Hi. apply in_app_or in Hi. destruct Hi as [Hi|[Hi|[]]]; [|discriminate]. apply H1. rewrite <- E. apply in_or_app. right. exact Hi. }
  destruct Ha10 as [Ha10 Hb36]. unfold fromBuffer. split.
  - rewrite Nat.add_comm. cbn [Nat.add buffer_loop]. rewrite (find_from_none 10 (36 :: a) 1 a); [|split; [cbn [List.length]; lia|reflexivity]|exact Ha10]. destruct (find_from 36 (36 :: a) 0); reflexivity.
  - rewrite Nat.add_comm. cbn [Nat.add buffer_loop]. rewrite (find_from_none 36 b 0 b); [|split; [lia|reflexivity]|exact Hb36]. reflexivity.
Qed.
Definition ineffective (s : list Z) : Prop := s <> [] /\ forall g, fromBuffer N pf oor lc g s = Ok (0, g).
Lemma ineffective_reads evs : forall d d' o, history d evs = Ok (d', o) -> sized N d -> Forall ineffective (reads d evs) ->
  d_gnss d' = d_gnss d /\ d_gnssAvailable d' = d_gnssAvailable d /\ d_gnssTimeout d' = d_gnssTimeout d.
Proof.
  induction evs as [|ev evs IH]; intros d d' o E S H; cbn [M_Main.history] in E.
  - apply Ok2 in E. destruct E as [<- _]. auto.
  - destruct (step d ev) as [[d1 o1]|] eqn:E1; [|discriminate]. cbn [bind] in E. destruct (history d1 evs) as [[d2 o2]|] eqn:E2; [|discriminate]. cbn [bind] in E.
    apply Ok2 in E. destruct E as [<- _]. apply step_summary in E1 as S1; [|exact S]. destruct S1 as [S1 _]. apply step_gnss in E1 as G; [|exact S].
    cbn [reads] in H. rewrite E1 in H. apply Forall_app in H. destruct H as [H0 H]. destruct (IH _ _ _ E2 S1 H) as (-> & -> & ->).
    destruct ev as [e|req]; [|exact G]. destruct (task_eq_dec _ _); [|exact G]. inversion H0 as [|? ? [Hne He] _]; subst.
    destruct G as [_ G]. destruct (G Hne) as (n & Ef & Hn & _). rewrite He in Ef. assert (n = 0) by congruence. assert (d_gnss d1 = d_gnss d) by congruence. destruct (Hn ltac:(lia)). auto.
Qed.
Theorem C125_split_sentence_lost_refuted : forall evs1 d1 o1 evs2 d2 o2 body a b, history boot evs1 = Ok (d1, o1) -> history d1 evs2 = Ok (d2, o2) ->
  a ++ b = 36 :: body ++ [10] -> ~ In 36 body -> ~ In 10 body -> a <> [] -> b <> [] ->
  reads d1 evs2 = [a; b] ->
  d_gnss d2 = d_gnss d1 /\ d_gnssAvailable d2 = d_gnssAvailable d1 /\ d_gnssTimeout d2 = d_gnssTimeout d1.
Proof.
  intros evs1 d1 o1 evs2 d2 o2 body a b E1 E2 Hab H36 H10 Ha Hb R. apply history_summary in E1 as S1; [|apply boot_sized]. destruct S1 as [S1 _].
  eapply ineffective_reads; [exact E2|exact S1|]. rewrite R.
  repeat constructor; try assumption; intros g; apply (split_no_effect a b body g); assumption.
Qed.
(** ... while read in one piece it is used whenever it is valid: *)
Theorem C125_whole_sentence_used : forall evs1 d1 o1 evs2 d2 o2 body g', history boot evs1 = Ok (d1, o1) -> history d1 evs2 = Ok (d2, o2) ->
  ~ In 10 body -> fromNMEA N pf oor lc (d_gnss d1) (36 :: body ++ [10]) = Ok (true, g') ->
  reads d1 evs2 = [36 :: body ++ [10]] ->
  d_gnss d2 = g' /\ d_gnssAvailable d2 = true /\ d_gnssTimeout d2 = 20.
Proof.
  intros evs1 d1 o1 evs2 d2 o2 body g' E1 E2 H10 Hv R. apply history_summary in E1 as S1; [|apply boot_sized]. destruct S1 as [S1 _].
  assert (Hf : fromBuffer N pf oor lc (d_gnss d1) (36 :: body ++ [10]) = Ok (1, g')).
  { pose proof (buffer_lines N pf oor lc [([], body)] [] (d_gnss d1)) as K. cbn [map List.concat P_Gnss3.feed] in K. unfold line_text, line_sentence in K. cbn [fst snd app] in K. rewrite !app_nil_r in K.
    rewrite K; [rewrite Hv; reflexivity| |intros []]. constructor; [|constructor]. split; [split; intros []|exact H10]. }
  clear E1 o1 evs1 Hv. revert d1 S1 d2 o2 E2 R Hf. induction evs2 as [|ev evs IH]; intros d S d' o E R Hf; cbn [M_Main.history] in E; [discriminate|].
  destruct (step d ev) as [[d1 o1]|] eqn:E1; [|discriminate]. cbn [bind] in E. destruct (history d1 evs) as [[d2 o2]|] eqn:E2; [|discriminate]. cbn [bind] in E.
  apply Ok2 in E. destruct E as [<- _]. apply step_summary in E1 as S1; [|exact S]. destruct S1 as [S1 _]. apply step_gnss in E1 as G; [|exact S].
  cbn [reads] in R. rewrite E1 in R. destruct ev as [e|req].
  - destruct (task_eq_dec _ _).
    + cbn [app] in R. assert (R1 : firstn 255 (e_serial e) = 36 :: body ++ [10]) by congruence. assert (R2 : reads d1 evs = []) by congruence.
      destruct G as [_ G]. rewrite R1, Hf in G. destruct (G ltac:(discriminate)) as (n & En & _ & Hn). assert (n = 1) as -> by congruence. assert (Eg : g' = d_gnss d1) by congruence. destruct (Hn ltac:(lia)) as [H1 H2].
      destruct (ineffective_reads _ _ _ _ E2 S1) as (-> & -> & ->); [rewrite R2; constructor|]. auto.
    + cbn [app] in R. destruct G as (G & _). eapply IH; eauto. rewrite G. exact Hf.
  - cbn [app] in R. destruct G as (G & _). eapply IH; eauto. rewrite G. exact Hf.
Qed.
End Device.
Print Assumptions C124_complete_sentences_used.
Print Assumptions C125_split_sentence_lost_refuted.
Print Assumptions C125_whole_sentence_used.
(** A valid sentence in one read, and cut after 5 bytes in two reads: the number of satellites in view, and availability. *)
From Verif Require Import P_AlignWitness Properties_Publish Properties_Device5.
Definition four_passes (t : Z) (serial : list Z) : list (event NumSF) := [here t [] []; here (t + 1) [] []; here (t + 2) [] []; here (t + 3) [] serial].
Definition received_as (parts : list (list Z)) :=
  let evs := List.concat (map (fun '(k, s) => four_passes (1000000 + 600000 * k) s) (combine [0; 1; 2] parts)) in
  match hist0 (boot NumSF) evs with
  | Ok (d, _) => Some (reads NumSF T0 esp32 strict_iso lcSF (insertion_sort NumSF) (Ok (fz 0)) (Some (fz 0, fz 0)) ft0 true cfg0 (boot NumSF) evs, g_satView (d_gnss d), d_gnssAvailable d)
  | UB _ => None
  end.
Example C124_C125_nonvacuous : received_as [gsv] = Some ([gsv], 12, true) /\
  received_as [firstn 5 gsv; skipn 5 gsv] = Some ([firstn 5 gsv; skipn 5 gsv], 0, false) /\
  complete gsv [([], firstn 15 (skipn 1 gsv))].
Proof.
  split; [vm_compute; reflexivity|]. split; [vm_compute; reflexivity|]. split.
  - constructor; [|constructor]. split; [split; intros []|]. cbn. intuition discriminate.
  - exists []. split; [intros []|reflexivity].
Qed.
