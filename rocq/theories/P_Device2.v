(** The alignment of the device is what its commands make of it. *)
From Verif Require Import Base Num M_Libc P_Libc M_Checkbits M_Linalg M_Helper M_Alignment S_Alignment P_Alignment P_AlignState P_AlignState2 M_Telescope M_Stellarium S_Stellarium P_Stellarium S_Device M_Gnss M_NexStar S_NexStar P_NexStar M_Led M_Imu P_Imu M_Main P_Sched P_Main P_Main2.
From Coq Require Import Strings.String Permutation.
Open Scope Z_scope.
Notation length := List.length.

Lemma unpack_goto N n data (o o' : unpack_out N) b : bytes_ok data -> (20 <= length data)%nat -> unpackPosition N false data n o = Ok (b, o') ->
  if b then is_goto data n /\ goto_says N data (o_ra o') (o_dec o') else ~ is_goto data n.
Proof.
  intros Hb Hl. unfold unpackPosition. rewrite (nth_rd data 0), (nth_rd data 1) by lia. cbn [bind].
  rewrite (field2 data 0) by (auto; lia). unfold is_goto.
  destruct (Z.ltb_spec (S_Stellarium.field 0 2 data) 20) as [H1|H1]; cbn [orb].
  { intros E. apply Ok2 in E. destruct E as [<- _]. lia. }
  destruct (Z.ltb_spec n (S_Stellarium.field 0 2 data)) as [H2|H2]; cbn [orb].
  { intros E. apply Ok2 in E. destruct E as [<- _]. lia. }
  rewrite (nth_rd data 2), (nth_rd data 3) by lia. cbn [bind]. rewrite (field2 data 2) by (auto; lia).
  destruct (Z.eqb_spec (S_Stellarium.field 2 2 data) 0) as [H3|H3]; cbn [negb].
  - rewrite !nth_rd by lia. cbn [bind]. rewrite (field4 data 12), (field4 data 16) by (auto; lia).
    intros E. apply Ok2 in E. destruct E as [<- <-]. split; [lia|]. split; reflexivity.
  - intros E. apply Ok2 in E. destruct E as [<- _]. lia.
Qed.

Section Device.
Context (N : Num) (T : Trig N) (pf : platform) (oor : conv_policy) (lc : libc N).
Context (qsort : list (vpair N) -> list (vpair N)) (m9 : res (F N)) (junk : option (F N * F N)).
Context (ftext : nat -> F N -> list Z) (left_first : bool) (cfg : config).
Notation dev := (dev N). Notation env := (env N). Notation event := (event N).
Notation loop := (loop N T pf oor lc qsort m9 junk ftext left_first cfg).
Notation step := (M_Main.step N T pf oor lc qsort m9 junk ftext left_first cfg).
Notation history := (history N T pf oor lc qsort m9 junk ftext left_first cfg).
Notation run := (run N qsort m9 junk).
Notation orders := (orders N T). Notation all_orders := (all_orders N T).

Lemma addRef_run t r d g t' : addReferencePoint N T qsort m9 junk t r d (g_latitude g) (lst_of N g) = Ok t' ->
  run (t_align t) (orders (Sync (t_orient t) r d g)) = Ok (t_align t').
Proof.
  unfold addReferencePoint. cbn [S_Device.orders S_Alignment.run S_Alignment.step]. unfold direction, lst_of.
  destruct (addVertexPair N qsort (t_align t) (t_orient t) _) as [[b a]|]; [|discriminate]. cbn [bind].
  destruct (TriangulateActual N m9 junk a) as [a'|]; [|discriminate]. cbn [bind]. intros E. apply Ok1 in E. subst t'. reflexivity.
Qed.

Lemma do_sync_says t g req t1 : do_sync N T pf qsort m9 junk t g req = Ok t1 ->
  exists r d t2, sync_says N req r d /\ addReferencePoint N T qsort m9 junk t r d (g_latitude g) (lst_of N g) = Ok t2 /\ t_align t1 = t_align t2.
Proof.
  intros Es. unfold do_sync in Es. destruct (M_NexStar.field pf req 1) as [w1|] eqn:E1; [|discriminate]. cbn [bind] in Es.
  destruct (M_NexStar.field pf req 10) as [w2|] eqn:E2; [|discriminate]. cbn [bind] in Es.
  match type of Es with context [addReferencePoint N T qsort m9 junk t ?r ?d _ _] => set (rr := r) in Es; set (dd := d) in Es end.
  destruct (addReferencePoint N T qsort m9 junk t rr dd _ _) as [t2|] eqn:Er; [|discriminate]. cbn [bind] in Es. apply Ok1 in Es. subst t1.
  exists rr, dd, t2. split; [|split; [exact Er|reflexivity]].
  intros v1 v2 f1 f2 sep rest W1 W2 S1 S2 Hreq angle.
  assert (L1 : length f1 = 8%nat) by (apply (spells_length v1); exact S1).
  pose proof (spells_field pf req v1 f1 [115] (sep :: f2 ++ rest) W1 S1) as F1. change (length [115]) with 1%nat in F1. rewrite F1 in E1 by (rewrite Hreq; reflexivity).
  pose proof (spells_field pf req v2 f2 (115 :: f1 ++ [sep]) rest W2 S2) as F2.
  replace (length (115 :: f1 ++ [sep])) with 10%nat in F2 by (cbn [length]; rewrite app_length; cbn [length]; lia).
  rewrite F2 in E2 by (rewrite Hreq; unfold sync_request; cbn [app]; rewrite <- app_assoc; reflexivity).
  apply Ok1 in E1. apply Ok1 in E2. subst v1 v2. split; reflexivity.
Qed.
Lemma handle_run t g req len resp n tx t' : len = Z.of_nat (length req) -> length resp = 256%nat ->
  handleRequest N T pf oor qsort m9 junk t g req len resp 256 = Ok (n, tx, t') ->
  (n <= 0 <-> ~ recognised req) /\
  ((t' = t /\ ~ is_sync req) \/
   (exists r d, is_sync req /\ sync_says N req r d /\ run (t_align t) (orders (Sync (t_orient t) r d g)) = Ok (t_align t'))).
Proof.
  intros -> L E. pose proof (handle_act N T pf oor qsort m9 junk t g req [] resp 256) as H. rewrite app_nil_r in H. rewrite H in E. clear H.
  assert (R : forall text t1, text <> [] -> reply N t1 resp 256 text = Ok (n, tx, t') -> t' = t1 /\ 0 < n).
  { intros text t1 Hne Er. unfold reply in Er. destruct (snprintf_general resp 256 text) as (h & E1 & _ & _); [rewrite L; lia|].
    rewrite E1 in Er. cbn [bind] in Er. split; [congruence|].
    assert (n = Z.of_nat (length text)) by congruence. destruct text; [contradiction|cbn [length] in *; lia]. }
  assert (S : act N t g req <> ANone -> 0 < n -> (n <= 0 <-> ~ recognised req)).
  { intros Ha Hn. split; [lia|]. intros Hr. apply (act_none N t g req) in Hr. contradiction. }
  destruct (act N t g req) as [text| | | |] eqn:Ea; cbn [perform] in E.
  5: { destruct (reads8 _ _); [|discriminate]. cbn [bind] in E. split.
       - split; [intros _; apply (act_none N t g req), Ea|]. intros _. assert (n = 0) by congruence. lia.
       - left. split; [congruence|]. intros Hs. apply (proj2 (act_sync N t g req)) in Hs. congruence. }
  4: { destruct (do_sync N T pf qsort m9 junk t g req) as [t1|] eqn:Es; [|discriminate]. cbn [bind] in E. apply R in E; [|discriminate]. destruct E as [-> Hn].
       split; [apply S; [discriminate|exact Hn]|]. right.
       apply do_sync_says in Es. destruct Es as (r & d & t2 & Hs & Er & ->). exists r, d.
       split; [apply (act_sync N t g req); exact Ea|]. split; [exact Hs|]. apply addRef_run in Er. exact Er. }
  all: assert (Ns : ~ is_sync req) by (intros Hs; apply (proj2 (act_sync N t g req)) in Hs; congruence).
  - assert (Hne : text <> []).
    { intros ->. unfold act in Ea. destruct req as [|c r]; [discriminate|].
      repeat match type of Ea with (if ?b then _ else _) = _ => destruct b end; try discriminate. all: destruct r; discriminate. }
    apply R in E; [|exact Hne]. destruct E as [-> Hn]. split; [apply S; [discriminate|exact Hn]|auto].
  - repeat (match type of E with (do _ <- ?x; _) = _ => destruct x; [|discriminate]; cbn [bind] in E end). apply R in E; [|discriminate].
    destruct E as [-> Hn]. split; [apply S; [discriminate|exact Hn]|auto].
  - match type of E with (do _ <- ?x; _) = _ => destruct x as [[q ty]|]; [|discriminate]; cbn [bind] in E end.
    repeat (match type of E with (do _ <- ?x; _) = _ => destruct x; [|discriminate]; cbn [bind] in E end). apply R in E; [|intros C; apply app_eq_nil in C; destruct C as [_ C]; discriminate].
    destruct E as [-> Hn]. split; [apply S; [discriminate|exact Hn]|auto].
Qed.

(** the commands in one packet *)
Lemma serve_run d e d' o : serve_tcp N T pf oor qsort m9 junk d e = Ok (d', o) -> sized N d ->
  (t_align (d_tel d') = t_align (d_tel d) /\ (0 < received N e -> packet_empty (rx_after N d e) (received N e))) \/
  (0 < received N e /\ exists r dc, packet_orders N (rx_after N d e) (received N e) r dc /\
     run (t_align (d_tel d)) (orders (Sync (t_orient (d_tel d)) r dc (d_gnss d))) = Ok (t_align (d_tel d'))).
Proof.
  intros E S. pose proof (rx_after_length N d e S) as HR. destruct S as [Ht Hr].
  assert (E' : (if 0 <? received N e then
    do '(n, tx, tel) <- handleRequest N T pf oor qsort m9 junk (d_tel d) (d_gnss d) (rx_after N d e) 256 (d_tx d) 256;
    let d2 := set_tel N (set_tx N (set_rx N d (rx_after N d e)) tx) tel in
    if 0 <? n then Ok (set_nexstar N d2 true, [TcpOut (firstn (Z.to_nat n) tx)])
    else
      do '(ok, o) <- unpackPosition N false (rx_after N d e) (received N e) (Build_unpack_out (fZ N 0) (fZ N 0) 0);
      if ok : bool then
        do tel <- addReferencePoint N T qsort m9 junk (d_tel d2) (o_ra o) (o_dec o) (g_latitude (d_gnss d2)) (lst N d2);
        Ok (set_tel N d2 tel, [])
      else Ok (d2, [])
    else Ok (set_rx N d (rx_after N d e), [])) = Ok (d', o)).
  { rewrite <- E. unfold serve_tcp, rx_after, received. destruct (e_tcp e); reflexivity. }
  clear E. destruct (Z.ltb_spec 0 (received N e)) as [Hrec|Hrec].
  2: { apply Ok2 in E'. destruct E' as [<- _]. left. split; [reflexivity|lia]. }
  destruct (handleRequest _ _ _ _ _ _ _ _ _ _ _ _ _) as [[[n tx] tel]|] eqn:Eh; [|discriminate]. cbn [bind] in E'. cbv zeta in E'.
  assert (Hl : Z.of_nat (length (rx_after N d e)) = 256) by (rewrite HR; reflexivity).
  apply handle_run in Eh; [|symmetry; exact Hl|exact Ht]. destruct Eh as [Hn Eh].
  destruct (Z.ltb_spec 0 n).
  - apply Ok2 in E'. destruct E' as [<- _]. cbn [set_nexstar set_tel d_tel]. destruct Eh as [[-> Hs]|(r & dc & Hs & Hsay & Eh)].
    + left. split; [reflexivity|]. intros _. split; [exact Hs|]. intros _ [Hnr _]. apply Hn in Hnr. lia.
    + right. split; [exact Hrec|]. exists r, dc. split; [left; auto|exact Eh].
  - assert (Hnr : ~ recognised (rx_after N d e)) by (apply Hn; lia).
    assert (Hns : ~ is_sync (rx_after N d e)) by (intros Hs; apply Hnr; right; right; right; exact Hs).
    assert (tel = d_tel d) as -> by (destruct Eh as [[-> _]|(? & ? & Hs & _)]; [reflexivity|contradiction]).
    destruct (unpackPosition N false (rx_after N d e) (received N e) _) as [[ok uo]|] eqn:Eu; [|discriminate]; cbn [bind] in E'.
    assert (Hg : bytes_ok (rx_after N d e) -> if ok then is_goto (rx_after N d e) (received N e) /\ goto_says N (rx_after N d e) (o_ra uo) (o_dec uo) else ~ is_goto (rx_after N d e) (received N e)).
    { intros Hb. eapply unpack_goto; [exact Hb|lia|exact Eu]. }
    destruct ok.
    + match type of E' with (do _ <- ?r; _) = _ => destruct r as [tel2|] eqn:Er end; [|discriminate]. cbn [bind] in E'.
      apply Ok2 in E'. destruct E' as [<- _]. right. split; [exact Hrec|]. exists (o_ra uo), (o_dec uo). cbn [set_tel set_tx set_rx d_tel d_gnss] in *.
      split; [right; split; [exact Hnr|exact Hg]|]. apply addRef_run in Er. exact Er.
    + apply Ok2 in E'. destruct E' as [<- _]. left. split; [reflexivity|]. intros _. split; [exact Hns|]. intros Hb [_ Hgo]. exact (Hg Hb Hgo).
Qed.

(** the commands of one event: what can be said of them *)
Definition resets (e : env) : bool := c_mqtt cfg && existsb (fun m => orders_reset (fst m) (snd m)) (e_msgs e).
Definition commands_of (d : dev) (ev : event) (d' : dev) (cs : list (command N)) : Prop :=
  match ev with
  | Bluetooth req => (is_sync req /\ exists r dc, sync_says N req r dc /\ cs = [Sync (t_orient (d_tel d)) r dc (d_gnss d)]) \/ (~ is_sync req /\ cs = [])
  | Pass e =>
      match the_task N d e with
      | Task100ms => exists s, cs = s ++ (if resets e then [Reset] else []) /\
          if has_client d && e_up_read e && (0 <? received N e)
          then (exists r dc, packet_orders N (rx_after N d e) (received N e) r dc /\ s = [Sync (t_orient (d_tel d')) r dc (d_gnss d)]) \/
               (packet_empty (rx_after N d e) (received N e) /\ s = [])
          else s = []
      | _ => cs = []
      end
  end.
Inductive commands : dev -> list event -> list (command N) -> Prop :=
| no_commands d : commands d [] []
| more_commands d ev d' o evs c cs : step d ev = Ok (d', o) -> commands_of d ev d' c -> commands d' evs cs ->
    commands d (ev :: evs) (c ++ cs).

Lemma step_run d ev d' o : step d ev = Ok (d', o) -> sized N d ->
  exists cs, commands_of d ev d' cs /\ run (t_align (d_tel d)) (all_orders cs) = Ok (t_align (d_tel d')).
Proof.
  destruct ev as [e|req]; cbn [M_Main.step]; intros E S.
  - unfold commands_of. destruct (loop_summary _ _ _ _ _ _ _ _ _ _ _ _ _ _ _ E S) as (_ & _ & _ & HT & _).
    destruct (the_task N d e) eqn:Et; try (exists []; split; [reflexivity|]; destruct HT as (_ & _ & _ & _ & _ & ->); [discriminate|reflexivity]).
    clear HT. rewrite loop_run, Et in E. cbn [M_Main.run_task] in E. set (d0 := set_timers N d (snd (select (d_timers d) (e_now e)))) in E.
    assert (S0 : sized N d0) by exact S.
    apply task_100_parts in E. destruct E as (p & d1 & o1 & d2 & o2 & Em & E1 & E2 & -> & ->).
    assert (Ef : forall dd, d_tel (fst (conn_part N cfg dd e)) = d_tel dd).
    { intros dd. unfold conn_part. rewrite check_accepts. destruct (c_wifi cfg); reflexivity. }
    rewrite Ef. clear Ef. cbn [set_led d_tel].
    (* messages *)
    assert (E2' : t_align (d_tel d2) = (if resets e then clearAll N (t_align (d_tel d1)) else t_align (d_tel d1)) /\ t_orient (d_tel d2) = t_orient (d_tel d1)).
    { unfold mqtt_part in E2. unfold resets. destruct (c_mqtt cfg); cbn [andb].
      - apply mqtt_loop_frame in E2.
        + destruct E2 as (tx2 & _ & _ & -> & _). split; reflexivity.
        + unfold tcp_part in E1. destruct (has_client _ && _); [|apply Ok2 in E1; destruct E1 as [<- _]; apply S0].
          apply serve_tcp_frame in E1; [|exact S0]. destruct E1 as (tx & tel & nx & -> & L & _). exact L.
      - apply Ok2 in E2. destruct E2 as [<- _]. split; reflexivity. }
    destruct E2' as [E2a E2o]. rewrite E2a, E2o.
    (* packet *)
    assert (E1' : exists s, (if has_client d && e_up_read e && (0 <? received N e)
          then (exists r dc, packet_orders N (rx_after N d e) (received N e) r dc /\ s = [Sync (t_orient (d_tel d1)) r dc (d_gnss d)]) \/
               (packet_empty (rx_after N d e) (received N e) /\ s = [])
          else s = []) /\
       run (t_align (d_tel d)) (all_orders s) = Ok (t_align (d_tel d1))).
    { unfold tcp_part in E1. change (has_client (d_after_read N left_first d0 e p)) with (has_client d) in E1.
      destruct (has_client d && e_up_read e); cbn [andb].
      - pose proof E1 as E1b. apply serve_run in E1; [|exact S0]. apply serve_tcp_frame in E1b; [|exact S0].
        destruct E1b as (tx & tel & nx & -> & _ & Ho & _). cbn [set_nexstar set_tel d_tel] in *.
        destruct E1 as [[E1 Hp]|(Hrec & r & dc & Hp & E1)].
        + exists []. split; [|rewrite E1; reflexivity]. destruct (Z.ltb_spec 0 (received N e)) as [Hrec|Hrec]; [right; split; [exact (Hp Hrec)|reflexivity]|reflexivity].
        + eexists. replace (0 <? received N e) with true by (symmetry; apply Z.ltb_lt; exact Hrec). split.
          * left. exists r, dc. split; [exact Hp|reflexivity].
          * rewrite Ho. unfold S_Device.all_orders. cbn [flat_map]. rewrite app_nil_r. exact E1.
      - apply Ok2 in E1. destruct E1 as [<- _]. exists []. split; reflexivity. }
    destruct E1' as (s & Hs & E1'). exists (s ++ if resets e then [Reset] else []). split; [exists s; split; [reflexivity|exact Hs]|].
    unfold S_Device.all_orders. rewrite flat_map_app. rewrite (run_app N). fold (all_orders s). rewrite E1'. cbn [bind].
    destruct (resets e); reflexivity.
  - unfold onBluetoothData in E. destruct (handleRequest _ _ _ _ _ _ _ _ _ _ _ _ _) as [[[n tx] tel]|] eqn:Eh; [|discriminate]. cbn [bind] in E. cbv zeta in E.
    assert (Ed : d_tel d' = tel) by (destruct (0 <? n); apply Ok2 in E; destruct E as [<- _]; reflexivity). rewrite Ed.
    apply handle_run in Eh; [|reflexivity|apply S]. destruct Eh as [_ [[-> Hn]|(r & dc & Hs & Hsay & Eh)]].
    + exists []. split; [right; split; [exact Hn|reflexivity]|reflexivity].
    + exists [Sync (t_orient (d_tel d)) r dc (d_gnss d)]. split; [left; split; [exact Hs|exists r, dc; split; [exact Hsay|reflexivity]]|].
      unfold S_Device.all_orders. cbn [flat_map]. rewrite app_nil_r. exact Eh.
Qed.

Lemma history_run evs : forall d d' o, history d evs = Ok (d', o) -> sized N d ->
  exists cs, commands d evs cs /\ run (t_align (d_tel d)) (all_orders cs) = Ok (t_align (d_tel d')).
Proof.
  induction evs as [|ev evs IH]; intros d d' o E S; cbn [M_Main.history] in E.
  - apply Ok2 in E. destruct E as [<- _]. exists []. split; [constructor|reflexivity].
  - destruct (step d ev) as [[d1 o1]|] eqn:E1; [|discriminate]. cbn [bind] in E. destruct (history d1 evs) as [[d2 o2]|] eqn:E2; [|discriminate]. cbn [bind] in E.
    apply Ok2 in E. destruct E as [<- _]. destruct (step_run _ _ _ _ E1 S) as (c & Hc & R1).
    apply step_summary in E1 as SS; [|exact S]. destruct (IH _ _ _ E2 (proj1 SS)) as (cs & Hcs & R2).
    exists (c ++ cs). split; [econstructor; eassumption|]. unfold S_Device.all_orders. rewrite flat_map_app, (run_app N). fold (all_orders c). rewrite R1. exact R2.
Qed.
End Device.
