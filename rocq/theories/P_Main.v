(** Frames: what each part of loop() can change. *)
From Verif Require Import Base Num M_Libc M_Checkbits M_Linalg M_Helper M_Alignment M_Telescope M_Stellarium M_Gnss M_NexStar S_NexStar P_NexStar M_Led M_Imu M_Main P_Sched.
From Coq Require Import Strings.String.
Notation length := List.length.

Lemma Ok2 {A B} (a a' : A) (b b' : B) : Ok (a, b) = Ok (a', b') -> a = a' /\ b = b'.
Proof. intros E. injection E as -> ->. auto. Qed.
Lemma pair2 {A B} (a a' : A) (b b' : B) : (a, b) = (a', b') -> a = a' /\ b = b'.
Proof. intros E. inversion E. auto. Qed.
Lemma Ok1 {A} (a a' : A) : Ok a = Ok a' -> a = a'.
Proof. intros E. injection E as ->. auto. Qed.
Lemma wr_length {A} (l : list A) i a l' : wr l i a = Ok l' -> length l' = length l.
Proof. unfold wr. destruct (upd l i a) eqn:E; [|discriminate]. intros H. apply Ok1 in H. subst. eapply upd_length; eauto. Qed.
Lemma poke_length mem i b mem' : poke mem i b = Ok mem' -> length mem' = length mem.
Proof.
  unfold poke. destruct (Nat.leb_spec (i + length b) (length mem)); [|discriminate]. intros E. apply Ok1 in E. subst.
  rewrite !app_length, firstn_length, skipn_length. lia.
Qed.
Lemma snprintf_length mem max text n mem' : snprintf mem max text = Ok (n, mem') -> length mem' = length mem /\ n = Z.of_nat (length text).
Proof.
  unfold snprintf. destruct (max <=? 0). { intros E. apply Ok2 in E. destruct E; subst; auto. }
  destruct (poke mem 0 _) eqn:E1; [|discriminate]. cbn [bind]. intros E. apply Ok2 in E. destruct E; subst. split; [eapply poke_length; eauto|auto].
Qed.
Lemma snprintf_at_length mem len text n mem' : snprintf_at mem len text = Ok (n, mem') -> length mem' = length mem /\ n = Z.of_nat (length text).
Proof.
  unfold snprintf_at. destruct (_ <? 0); [discriminate|]. destruct (_ =? 0). { intros E. apply Ok2 in E. destruct E; subst; auto. }
  destruct (poke mem _ _) eqn:E1; [|discriminate]. cbn [bind]. intros E. apply Ok2 in E. destruct E; subst. split; [eapply poke_length; eauto|auto].
Qed.
Lemma put_length bs : forall b pos b', put b pos bs = Ok b' -> length b' = length b.
Proof.
  induction bs as [|x bs IH]; intros b pos b' E; cbn [put] in E; [apply Ok1 in E; subst; auto|].
  destruct (wr b pos x) eqn:Ew; [|discriminate]. cbn [bind] in E. apply IH in E. apply wr_length in Ew. congruence.
Qed.

Section P.
Context (N : Num) (T : Trig N) (pf : platform) (oor : conv_policy) (lc : libc N).
Context (qsort : list (vpair N) -> list (vpair N)) (m9 : res (F N)) (junk : option (F N * F N)).
Context (ftext : nat -> F N -> list Z) (left_first : bool) (cfg : config).
Notation dev := (dev N). Notation env := (env N).
Notation handle d req len := (handleRequest N T pf oor qsort m9 junk (d_tel d) (d_gnss d) req len (d_tx d) 256).

(** ** NexStar request as seen by main.cpp *)
Lemma handle_result t g req resp n tx t' : length resp = 256%nat ->
  handleRequest N T pf oor qsort m9 junk t g req (Z.of_nat (length req)) resp 256 = Ok (n, tx, t') ->
  length tx = 256%nat /\ 0 <= n <= 18 /\ t_orient t' = t_orient t /\
  ((n = 1 /\ firstn 1 tx = [35] /\ t_cal t' = true /\ is_sync req) \/ (n <> 1 /\ t' = t /\ ~ is_sync req)).
Proof.
  intros Hl E. pose proof (handle_act N T pf oor qsort m9 junk t g req [] resp 256) as H. rewrite app_nil_r in H. rewrite H in E. clear H.
  assert (G : forall text t1, reply N t1 resp 256 text = Ok (n, tx, t') -> (length text <= 18)%nat ->
      length tx = 256%nat /\ n = Z.of_nat (length text) /\ t' = t1 /\ tx = written text resp).
  { intros text t1 Er Ht. unfold reply in Er. rewrite snprintf_fits in Er by lia. cbn [bind] in Er.
    apply Ok2 in Er. destruct Er as [Er ->]. apply pair2 in Er; destruct Er as [<- <-]. unfold written. rewrite app_length. cbn [length]. rewrite skipn_length.
    repeat split; lia. }
  destruct (act N t g req) as [text| | | |] eqn:Ea; cbn [perform] in E.
  - assert (Hlen : (2 <= length text <= 18)%nat).
    { unfold act in Ea. destruct req as [|c r]; [discriminate|].
      repeat match type of Ea with (if ?b then _ else _) = _ => destruct b end; try discriminate; injection Ea as <-; cbn [length app pc]; lia. }
    destruct (G _ _ E ltac:(lia)) as (G1 & -> & -> & _). split; [exact G1|]. split; [lia|]. split; [reflexivity|]. right.
    split; [lia|]. split; [reflexivity|]. intros Hs. apply (act_sync N t g) in Hs. congruence.
  - destruct (degrees_byte N oor (g_latitude g)); [|discriminate]. cbn [bind] in E. destruct (minutes_byte N oor (g_latitude g)); [|discriminate]. cbn [bind] in E.
    destruct (degrees_byte N oor (g_longitude g)); [|discriminate]. cbn [bind] in E. destruct (minutes_byte N oor (g_longitude g)); [|discriminate]. cbn [bind] in E.
    destruct (G _ _ E) as (G1 & En & -> & _); [cbn [length app pc]; lia|]. cbn [length app pc] in En. subst n. split; [exact G1|]. split; [lia|]. split; [reflexivity|]. right.
    split; [lia|]. split; [reflexivity|]. intros Hs. apply (act_sync N t g) in Hs. congruence.
  - destruct (calibratedEquatorial N T t (g_latitude g) (lst_of N g)) as [[q ty]|]; [|discriminate]. cbn [bind] in E.
    destruct (word_of N oor (ra q)); [|discriminate]. cbn [bind] in E. destruct (word_of N oor (dec q)); [|discriminate]. cbn [bind] in E.
    destruct (G _ _ E) as (G1 & En & -> & _); [cbn [length app hex8 map]; lia|]. cbn [length app hex8 map] in En. subst n. split; [exact G1|]. split; [lia|]. split; [reflexivity|]. right.
    split; [lia|]. split; [reflexivity|]. intros Hs. apply (act_sync N t g) in Hs. congruence.
  - destruct (do_sync N T pf qsort m9 junk t g req) as [t1|] eqn:Es; [|discriminate]. cbn [bind] in E.
    destruct (G _ _ E) as (G1 & En & -> & Et); [cbn [length]; lia|]. cbn [length] in En. subst n tx. split; [exact G1|]. split; [lia|].
    assert (Hf : t_orient t1 = t_orient t /\ t_cal t1 = true).
    { clear - Es. unfold do_sync in Es. destruct (field pf req 1); [|discriminate]. cbn [bind] in Es. destruct (field pf req 10); [|discriminate]. cbn [bind] in Es.
      match type of Es with (do _ <- ?r; _) = _ => destruct r as [t2|] eqn:Er end; [|discriminate]. cbn [bind] in Es. apply Ok1 in Es. subst t1.
      cbn [t_orient t_cal]. split; [|reflexivity]. unfold addReferencePoint in Er.
      match type of Er with (do _ <- ?r; _) = _ => destruct r as [[b5 a5]|] end; [|discriminate]. cbn [bind] in Er.
      match type of Er with (do _ <- ?r; _) = _ => destruct r as [a6|] end; [|discriminate]. cbn [bind] in Er. apply Ok1 in Er. subst t2. reflexivity. }
    destruct Hf as [Hf1 Hf2]. split; [exact Hf1|]. left. split; [reflexivity|]. split; [reflexivity|]. split; [exact Hf2|]. apply (act_sync N t g). exact Ea.
  - destruct (reads8 pf req); [|discriminate]. cbn [bind] in E. apply Ok2 in E. destruct E as [E E2]. subst t'. apply pair2 in E; destruct E as [<- <-].
    split; [exact Hl|]. split; [lia|]. split; [reflexivity|]. right. split; [lia|]. split; [reflexivity|]. intros Hs. apply (act_sync N t g) in Hs. congruence.
Qed.

(** ** publishing only touches txBuffer *)
Definition is_pub (o : out) : Prop := match o with MqttOut _ _ | BrokerOut _ _ => True | _ => False end.
Definition tx_only (d d' : dev) : Prop := exists tx, d' = set_tx N d tx /\ length tx = length (d_tx d).
Lemma set_tx_tx d a b : set_tx N (set_tx N d a) b = set_tx N d b. Proof. reflexivity. Qed.
Lemma tx_only_trans a b c : tx_only a b -> tx_only b c -> tx_only a c.
Proof. intros (x & -> & H1) (y & -> & H2). exists y. split; [reflexivity|]. cbn [set_tx d_tx] in H2. congruence. Qed.
Lemma tx_only_refl d : tx_only d d.
Proof. exists (d_tx d). split; [destruct d; reflexivity|reflexivity]. Qed.
Lemma mqtt_publish_pub tp mem n : Forall is_pub (mqtt_publish tp mem n).
Proof. unfold mqtt_publish. destruct (_ <=? _); repeat constructor. Qed.
Lemma publish_tx_pub tp tx n o : publish_tx cfg tp tx n = Ok o -> Forall is_pub o.
Proof.
  unfold publish_tx. destruct (c_broker cfg).
  - destruct (cstring tx); [|discriminate]. cbn [bind]. intros E. apply Ok1 in E. subst. apply Forall_app. split; [destruct (c_mqtt cfg); [apply mqtt_publish_pub|constructor]|repeat constructor].
  - cbn [bind]. intros E. apply Ok1 in E. subst. rewrite app_nil_r. destruct (c_mqtt cfg); [apply mqtt_publish_pub|constructor].
Qed.
Lemma publish_text_frame d tp text d' o : publish_text N cfg d tp text = Ok (d', o) -> tx_only d d' /\ Forall is_pub o.
Proof.
  unfold publish_text. destruct (snprintf (d_tx d) 256 text) as [[n tx]|] eqn:E; [|discriminate]. cbn [bind].
  destruct (publish_tx cfg tp tx n) eqn:Ep; [|discriminate]. cbn [bind]. intros H. apply Ok2 in H. destruct H as [<- <-].
  apply snprintf_length in E. split; [exists tx; split; [reflexivity|tauto]|eapply publish_tx_pub; eauto].
Qed.
Lemma append_points_length ps : forall tx len n tx', append_points N ftext tx len ps = Ok (n, tx') -> length tx' = length tx.
Proof.
  induction ps as [|p ps IH]; intros tx len n tx' E; cbn [append_points] in E; [apply Ok2 in E; destruct E; subst; auto|].
  destruct (snprintf_at tx len (point_text N ftext p)) as [[k tx1]|] eqn:E1; [|discriminate]. cbn [bind] in E. apply IH in E. apply snprintf_at_length in E1. destruct E1. congruence.
Qed.
Lemma publish_points_frame d tp ps d' o : publish_points N ftext cfg d tp ps = Ok (d', o) -> tx_only d d' /\ Forall is_pub o.
Proof.
  unfold publish_points. destruct (wr (d_tx d) 0 91) as [tx1|] eqn:E1; [|discriminate]. cbn [bind].
  destruct (append_points N ftext tx1 1 ps) as [[len tx2]|] eqn:E2; [|discriminate]. cbn [bind].
  destruct (wr tx2 (Z.to_nat len) 93) as [tx3|] eqn:E3; [|discriminate]. cbn [bind].
  destruct (publish_tx cfg tp tx3 (len + 1)) eqn:Ep; [|discriminate]. cbn [bind]. intros H. apply Ok2 in H. destruct H as [<- <-].
  split; [|eapply publish_tx_pub; eauto]. exists tx3. split; [reflexivity|].
  apply wr_length in E1, E3. apply append_points_length in E2. congruence.
Qed.
Lemma pack_length ra dec ts b n r b' : packPosition N oor ra dec ts b n = Ok (r, b') -> length b' = length b.
Proof.
  unfold packPosition. destruct (n <? 24). { intros E. apply Ok2 in E. destruct E; subst; auto. }
  match goal with |- (do _ <- put ?x ?y ?z; _) = _ -> _ => destruct (put x y z) as [b1|] eqn:E1 end; [|discriminate]. cbn [bind].
  destruct (to_u32 N oor (encode_expr N ra)) as [u|]; [|discriminate]. cbn [bind].
  match goal with |- (do _ <- put ?x ?y ?z; _) = _ -> _ => destruct (put x y z) as [b2|] eqn:E2 end; [|discriminate]. cbn [bind].
  destruct (to_u32 N oor (encode_expr N dec)) as [v|]; [|discriminate]. cbn [bind].
  match goal with |- (do _ <- put ?x ?y ?z; _) = _ -> _ => destruct (put x y z) as [b3|] eqn:E3 end; [|discriminate]. cbn [bind].
  match goal with |- (do _ <- put ?x ?y ?z; _) = _ -> _ => destruct (put x y z) as [b4|] eqn:E4 end; [|discriminate]. cbn [bind].
  intros E. apply Ok2 in E. destruct E as [_ <-]. apply put_length in E1, E2, E3, E4. congruence.
Qed.
(** position messages *)
Lemma send_position_frame d e q d' o : send_position N oor d e q = Ok (d', o) ->
  tx_only d d' /\ (o = [] \/ (exists b, o = [TcpOut (firstn 24 b)] /\ packPosition N oor (ra q) (dec q) 0 (d_tx d) 256 = Ok (24, b)) /\
    has_client d = true /\ e_up_read e = true /\ d_gnssAvailable d = true /\ d_nexstar d = false).
Proof.
  unfold send_position. destruct (has_client d && e_up_read e && d_gnssAvailable d && negb (d_nexstar d)) eqn:Ec.
  - destruct (packPosition N oor (ra q) (dec q) 0 (d_tx d) 256) as [[n b]|] eqn:Ep; [|discriminate]. cbn [bind]. intros H. apply Ok2 in H. destruct H as [<- <-].
    split. { exists b. split; [reflexivity|]. eapply pack_length; eauto. }
    destruct (Z.eqb_spec n 24) as [->|]; [|left; reflexivity]. right.
    apply andb_true_iff in Ec. destruct Ec as [Ec H4]. apply andb_true_iff in Ec. destruct Ec as [Ec H3]. apply andb_true_iff in Ec. destruct Ec as [H1 H2].
    apply negb_true_iff in H4. split; [|auto]. exists b. split; reflexivity.
  - intros H. apply Ok2 in H. destruct H as [<- <-]. split; [apply tx_only_refl|left; reflexivity].
Qed.
Lemma andthen_inv r f d' o : andthen N r f = Ok (d', o) -> exists d1 o1 o2, r = Ok (d1, o1) /\ f d1 = Ok (d', o2) /\ o = o1 ++ o2.
Proof.
  unfold andthen. destruct r as [[d1 o1]|]; [|discriminate]. cbn [bind]. destruct (f d1) as [[d2 o2]|] eqn:E; [|discriminate]. cbn [bind].
  intros H. apply Ok2 in H. destruct H as [<- <-]. eauto 6.
Qed.

(** ** GNSS poll *)
Inductive poll := PollAccepted | PollNoise | PollEmpty.
Definition kind (d : dev) (e : env) : poll :=
  match firstn 255 (e_serial e) with
  | [] => PollEmpty
  | bytes => match fromBuffer N pf oor lc (d_gnss d) bytes with Ok (n, _) => if 0 <? n then PollAccepted else PollNoise | UB _ => PollNoise end
  end.
Definition timeout_after (k : poll) (t : Z) : Z := match k with PollAccepted => 20 | PollNoise => t | PollEmpty => if 0 <? t then t - 1 else t end.
Definition available_after (k : poll) (t : Z) (a : bool) : bool := match k with PollAccepted => true | PollNoise => a | PollEmpty => 0 <? timeout_after PollEmpty t end.
Lemma poll_frame d e d' : poll_gnss N pf oor lc d e = Ok d' -> length (d_rx d) = 256%nat ->
  exists rx g, d' = set_rx N (set_gnss N d g (timeout_after (kind d e) (d_gnssTimeout d)) (available_after (kind d e) (d_gnssTimeout d) (d_gnssAvailable d))) rx
    /\ length rx = 256%nat /\ (firstn 255 (e_serial e) = [] -> g = d_gnss d /\ rx = d_rx d) /\
    (firstn 255 (e_serial e) <> [] -> exists n, fromBuffer N pf oor lc (d_gnss d) (firstn 255 (e_serial e)) = Ok (n, g)).
Proof.
  unfold poll_gnss, kind. intros E Hr. pose proof (firstn_le_length 255 (e_serial e)) as HL.
  destruct (firstn 255 (e_serial e)) as [|b bs] eqn:Eb.
  - apply Ok1 in E. subst d'. exists (d_rx d), (d_gnss d). split; [destruct d; reflexivity|]. split; [exact Hr|]. split; [auto|]. intros C. congruence.
  - cbv zeta in E. set (l := b :: bs) in *. cbn [set_rx d_gnss] in E.
    destruct (fromBuffer N pf oor lc (d_gnss d) l) as [[n g]|] eqn:Ef; [|discriminate]. cbn [bind] in E.
    exists (l ++ 0 :: skipn (S (length l)) (d_rx d)), g.
    assert (HL2 : length (l ++ 0 :: skipn (S (length l)) (d_rx d)) = 256%nat).
    { rewrite app_length. cbn [length]. rewrite skipn_length. lia. }
    split; [|split; [exact HL2|split; [intros C; unfold l in C; discriminate|intros _; eauto]]].
    destruct (0 <? n); apply Ok1 in E; subst d'; destruct d; reflexivity.
Qed.

(** ** 500 ms task *)
Lemma task_500_frame d e d' o : task_500ms N T pf oor lc ftext cfg d e = Ok (d', o) -> length (d_rx d) = 256%nat ->
  exists d1 q ty, poll_gnss N pf oor lc d e = Ok d1 /\ tx_only d1 d' /\
    (c_sensor cfg = false -> o = [] /\ d' = d1) /\
    (c_sensor cfg = true -> calibratedEquatorial N T (d_tel d1) (g_latitude (d_gnss d1)) (lst N d1) = Ok (q, ty) /\
      exists o1 o2 d2, send_position N oor d1 e q = Ok (d2, o1) /\ o = o1 ++ o2 /\ Forall is_pub o2).
Proof.
  unfold task_500ms. intros E Hr. destruct (poll_gnss N pf oor lc d e) as [d1|] eqn:Ep; [|discriminate]. cbn [bind] in E.
  destruct (c_sensor cfg) eqn:Ec.
  - cbv zeta in E. destruct (calibratedEquatorial N T (d_tel d1) (g_latitude (d_gnss d1)) (lst N d1)) as [[q ty]|] eqn:Eq; [|discriminate]. cbn [bind] in E.
    exists d1, q, ty. split; [reflexivity|].
    apply andthen_inv in E. destruct E as (d2 & o1 & o2 & E1 & E & ->).
    pose proof (send_position_frame _ _ _ _ _ E1) as [F1 _].
    assert (G : tx_only d2 d' /\ Forall is_pub o2).
    { clear E1 F1.
      do 9 (apply andthen_inv in E; let d3 := fresh "d" in let oa := fresh "o" in let ob := fresh "o" in let H := fresh "H" in
            destruct E as (d3 & oa & ob & H & E & ->); apply publish_text_frame in H).
      do 2 (apply andthen_inv in E; let d3 := fresh "d" in let oa := fresh "o" in let ob := fresh "o" in let H := fresh "H" in
            destruct E as (d3 & oa & ob & H & E & ->); apply publish_points_frame in H).
      match type of E with (do _ <- ?r; _) = _ => destruct r end; [|discriminate]. cbn [bind] in E. apply publish_text_frame in E.
      repeat match goal with H : _ /\ _ |- _ => destruct H end.
      split; [repeat (eapply tx_only_trans; [eassumption|]); apply tx_only_refl|].
      repeat (apply Forall_app; split; [assumption|]). assumption. }
    destruct G as [G1 G2]. split; [eapply tx_only_trans; eauto|]. split; [discriminate|]. intros _. split; [exact Eq|]. exists o1, o2, d2. auto.
  - apply Ok2 in E. destruct E as [<- <-]. exists d1, (Equ (fZ N 0) (fZ N 0)), NONE. split; [reflexivity|]. split; [apply tx_only_refl|]. split; [auto|discriminate].
Qed.
End P.
