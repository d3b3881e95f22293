(** C57, C91, C92, C93: what the 500 ms task publishes about the alignment points. *)
From Verif Require Import Base Num M_Libc P_Libc M_Checkbits M_Linalg M_Helper M_Alignment S_Alignment M_Telescope M_Stellarium M_Gnss M_NexStar S_NexStar P_NexStar M_Led M_Imu M_Main P_Sched P_Main P_Main2 P_Publish S_Json P_Json.
From Coq Require Import Strings.String Floats.SpecFloat.
Notation length := List.length.

Section Device.
Context (N : Num) (T : Trig N) (pf : platform) (oor : conv_policy) (lc : libc N).
Context (qsort : list (vpair N) -> list (vpair N)) (m9 : res (F N)) (junk : option (F N * F N)).
Context (ftext : nat -> F N -> list Z) (left_first : bool) (cfg : config).
Notation dev := (dev N). Notation env := (env N).
Notation loop := (loop N T pf oor lc qsort m9 junk ftext left_first cfg).
Notation publish_points := (publish_points N ftext cfg).

(** The text of the points: "[x,y]," for each, with two decimals. *)
Definition list_text (ps : list (point N)) : list Z :=
  List.concat (map (fun p => str "[" ++ ftext 2 (px p) ++ str "," ++ ftext 2 (py p) ++ str "],") ps).
Lemma list_text_eq ps : list_text ps = points_text N ftext ps. Proof. reflexivity. Qed.
Notation actual_points d := (map (fun v => actual v) (stored (t_align (d_tel d)))).
Notation reference_points d := (map (fun v => reference v) (stored (t_align (d_tel d)))).

(** ** C57.  The formatting code stays inside txBuffer[256] exactly when the texts have at most 254 characters. *)
Theorem C57_in_bounds_exactly : forall d tp ps, length (d_tx d) = 256%nat ->
  ((length (list_text ps) <= 254)%nat -> publish_points d tp ps <> UB OobWrite) /\
  ((254 < length (list_text ps))%nat -> publish_points d tp ps = UB OobWrite).
Proof.
  intros d tp ps L. rewrite list_text_eq. split; intros H; [|now apply publish_points_over].
  rewrite publish_points_fits by assumption. unfold publish_tx. destruct (c_broker cfg); [|discriminate].
  unfold cstring. destruct (find_char 0 _); discriminate.
Qed.
Lemma publish_points_payload d tp ps d' o tq payload : length (d_tx d) = 256%nat ->
  publish_points d tp ps = Ok (d', o) -> In (MqttOut tq payload) o -> tq = tp /\ payload = str "[" ++ list_text ps ++ str "]".
Proof.
  intros L E Hin. destruct (Nat.leb_spec (length (points_text N ftext ps)) 254) as [H|H]; [|rewrite publish_points_over in E by assumption; discriminate].
  rewrite publish_points_fits in E by assumption.
  unfold publish_tx in E.
  assert (K : forall b, In (MqttOut tq payload) ((if c_mqtt cfg then mqtt_publish tp (bracketed N ftext ps (d_tx d)) (2 + Z.of_nat (length (points_text N ftext ps))) else []) ++ b) ->
            Forall (fun x => match x with MqttOut _ _ => False | _ => True end) b -> tq = tp /\ payload = str "[" ++ list_text ps ++ str "]").
  { intros b Hb Fb. apply in_app_or in Hb. destruct Hb as [Hb|Hb]; [|exfalso; rewrite Forall_forall in Fb; exact (Fb _ Hb)].
    destruct (c_mqtt cfg); [|contradiction]. unfold mqtt_publish in Hb. destruct (_ <=? 256); [|contradiction]. destruct Hb as [Hb|[]].
    assert (X : forall a b c d, MqttOut a b = MqttOut c d -> a = c /\ b = d) by (intros ? ? ? ? Q; inversion Q; auto).
    apply X in Hb. destruct Hb as [-> <-]. split; [reflexivity|]. unfold bracketed. change (list_text ps) with (points_text N ftext ps).
    replace (Z.to_nat (2 + Z.of_nat (length (points_text N ftext ps)))) with (S (length (points_text N ftext ps) + 1)) by lia. cbn [firstn].
    change (str "[") with [91]. change (str "]") with [93]. cbn [app]. f_equal.
    rewrite firstn_app_2. cbn [firstn]. reflexivity. }
  destruct (c_broker cfg).
  - destruct (cstring _); [|discriminate]. cbn [bind] in E. apply Ok2 in E. destruct E as [_ <-]. eapply K; [exact Hin|repeat constructor].
  - cbn [bind] in E. apply Ok2 in E. destruct E as [_ <-]. eapply K; [exact Hin|constructor].
Qed.
(** What an MQTT server receives on the two topics is the list of the stored points at that moment. *)
Theorem C57_published_points : forall d e d' o payload, loop d e = Ok (d', o) -> sized N d ->
  (In (MqttOut "home/appliance/telescope/actual" payload) o -> payload = str "[" ++ list_text (actual_points d) ++ str "]") /\
  (In (MqttOut "home/appliance/telescope/reference" payload) o -> payload = str "[" ++ list_text (reference_points d) ++ str "]").
Proof.
  intros d e d' o payload E S. pose proof E as E0. rewrite loop_run in E.
  set (d0 := set_timers N d (snd (select (d_timers d) (e_now e)))) in *.
  assert (S0 : sized N d0) by exact S.
  destruct (the_task N d e) eqn:Et; cbn [M_Main.run_task] in E.
  all: try (apply Ok2 in E; destruct E as [_ <-]; split; intros []).
  - unfold task_filter in E. destruct (c_sensor cfg); [|apply Ok2 in E; destruct E as [_ <-]; split; intros []].
    destruct (e_acc e) as [[x y] z]. destruct (accSample _ _ _ _ _); [|discriminate]. apply Ok2 in E. destruct E as [_ <-]. split; intros [].
  - unfold task_25ms in E. apply Ok2 in E. destruct E as [_ <-]. destruct (led_update _ _); split; cbn; intuition discriminate.
  - (* 100 ms: only control messages *)
    assert (K : forall tp p, In (MqttOut tp p) o -> tp = CONTROL_TOPIC).
    { unfold task_100ms in E. destruct (measure_pitch N T d0) as [pt|]; [|discriminate]. cbn [bind] in E. cbv zeta in E.
      match type of E with bind ?a _ = _ => destruct a as [[d1 o1]|] eqn:E1; [|discriminate] end. cbn [bind] in E.
      match type of E with bind ?a _ = _ => destruct a as [[d2 o2]|] eqn:E2; [|discriminate] end. cbn [bind] in E.
      match type of E with (let '(_, _) := ?a in _) = _ => destruct a as [d3 o3] eqn:E3 end. apply Ok2 in E. destruct E as [_ <-].
      intros tp p Hin. apply in_app_or in Hin. destruct Hin as [Hin|Hin]; [|apply in_app_or in Hin; destruct Hin as [Hin|Hin]].
      - exfalso. revert E1 Hin. match goal with |- context [if ?b then serve_tcp _ _ _ _ _ _ _ ?x e else _] => generalize x end; intros x E1 Hin. destruct (has_client x && e_up_read e).
        2: { apply Ok2 in E1. destruct E1 as [_ <-]. contradiction. }
        unfold serve_tcp in E1. match type of E1 with (let '(_, _) := ?a in _) = _ => destruct a as [rc rx] end. cbv zeta in E1.
        destruct (0 <? rc); [|apply Ok2 in E1; destruct E1 as [_ <-]; contradiction].
        match type of E1 with bind ?a _ = _ => destruct a as [[[n tx] tel]|]; [|discriminate] end. cbn [bind] in E1.
        destruct (0 <? n); [apply Ok2 in E1; destruct E1 as [_ <-]; destruct Hin as [Hin|[]]; discriminate|].
        destruct (unpackPosition N false rx rc _) as [[ok out]|]; [|discriminate]. cbn [bind] in E1. destruct ok; [|apply Ok2 in E1; destruct E1 as [_ <-]; contradiction].
        match type of E1 with bind ?a _ = _ => destruct a; [|discriminate] end. apply Ok2 in E1. destruct E1 as [_ <-]. contradiction.
      - destruct (c_mqtt cfg); [|apply Ok2 in E2; destruct E2 as [_ <-]; contradiction].
        clear E1 E3 E0. revert d1 d2 o2 E2 Hin. induction (e_msgs e) as [|[t pl] ms IH]; intros d1 d2 o2 E2 Hin; cbn [mqtt_loop] in E2; [apply Ok2 in E2; destruct E2 as [_ <-]; contradiction|].
        destruct (mqttCallback N d1 t pl) as [[da oa]|] eqn:Ea; [|discriminate]. cbn [bind] in E2. destruct (mqtt_loop N da ms) as [[db ob]|] eqn:Eb; [|discriminate]. cbn [bind] in E2.
        apply Ok2 in E2. destruct E2 as [_ <-]. apply in_app_or in Hin. destruct Hin as [Hin|Hin]; [|exact (IH da db ob Eb Hin)].
        unfold mqttCallback in Ea. destruct pl as [|c pl]; [apply Ok2 in Ea; destruct Ea as [_ <-]; contradiction|].
        destruct (find_sub _ _); [|apply Ok2 in Ea; destruct Ea as [_ <-]; contradiction]. destruct (c =? 49); [|apply Ok2 in Ea; destruct Ea as [_ <-]; contradiction].
        cbv zeta in Ea. match type of Ea with bind ?a _ = _ => destruct a; [|discriminate] end. cbn [bind] in Ea. apply Ok2 in Ea. destruct Ea as [_ <-].
        unfold mqtt_publish in Hin. destruct (_ <=? _); [|contradiction]. destruct Hin as [Hin|[]]. congruence.
      - exfalso. destruct (c_wifi cfg); [|inversion E3; subst; contradiction]. unfold checkForConnections in E3. destruct (e_pending e) as [|c more]; [inversion E3; subst; contradiction|].
        match type of E3 with (if ?b then _ else _) = _ => destruct b end; inversion E3; subst; cbn in Hin; [destruct more|]; cbn in Hin; intuition discriminate. }
    split; intros Hin; apply K in Hin; discriminate.
  - (* 500 ms *)
    destruct (c_sensor cfg) eqn:Hc.
    2: { destruct (task_500_frame _ _ _ _ _ _ _ _ _ _ _ E (proj2 S0)) as (d1 & q & ty & _ & _ & H & _). destruct (H Hc) as [-> _]. split; intros []. }
    destruct (task_500_points _ _ _ _ _ _ _ _ _ _ _ E S0 Hc) as (dx & ty & da & oa & db & ob & dc & oc & ox & oy & _ & Lx & Ea & Eb & Ec & -> & Fx & Fy).
    assert (La : length (d_tx da) = 256%nat) by (apply publish_text_frame in Ea; destruct Ea as [(t & -> & Lt) _]; cbn [set_tx d_tx]; congruence).
    assert (Lb : length (d_tx db) = 256%nat) by (apply publish_points_frame in Eb; destruct Eb as [(t & -> & Lt) _]; cbn [set_tx d_tx]; congruence).
    rewrite Forall_forall in Fx, Fy. split; intros Hin; apply in_app_or in Hin; destruct Hin as [Hin|Hin].
    + apply Fx in Hin. destruct Hin as [Hin _]. exfalso. apply Hin. reflexivity.
    + apply in_app_or in Hin. destruct Hin as [Hin|Hin]; [exact (proj2 (publish_points_payload _ _ _ _ _ _ _ La Eb Hin))|].
      apply in_app_or in Hin. destruct Hin as [Hin|Hin]; [destruct (publish_points_payload _ _ _ _ _ _ _ Lb Ec Hin); discriminate|].
      apply Fy in Hin. destruct Hin as [Hin _]. exfalso. apply Hin. reflexivity.
    + apply Fx in Hin. destruct Hin as [_ Hin]. exfalso. apply Hin. reflexivity.
    + apply in_app_or in Hin. destruct Hin as [Hin|Hin]; [destruct (publish_points_payload _ _ _ _ _ _ _ La Eb Hin); discriminate|].
      apply in_app_or in Hin. destruct Hin as [Hin|Hin]; [exact (proj2 (publish_points_payload _ _ _ _ _ _ _ Lb Ec Hin))|].
      apply Fy in Hin. destruct Hin as [_ Hin]. exfalso. apply Hin. reflexivity.
  - (* 2 s *)
    unfold task_2s in E.
    assert (K : forall tp p, In (MqttOut tp p) o -> tp = topic "gnss").
    { repeat (match type of E with (do _ <- wr ?a ?b ?c; _) = _ => destruct (wr a b c); [|discriminate]; cbn [bind] in E end). cbv zeta in E.
      match type of E with bind ?a _ = _ => destruct a as [[d1 o1]|] eqn:E1; [|discriminate] end. cbn [bind] in E. apply Ok2 in E. destruct E as [_ <-].
      intros tp p Hin. apply in_app_or in Hin. destruct Hin as [Hin|Hin]; [|destruct (_ && _); [destruct Hin as [Hin|[]]; discriminate|contradiction]].
      match type of E1 with (if ?b then _ else _) = _ => destruct b; [|apply Ok2 in E1; destruct E1 as [_ <-]; contradiction] end.
      match type of E1 with bind ?a _ = _ => destruct a as [[n tx]|]; [|discriminate] end. cbn [bind] in E1.
      match type of E1 with bind ?a _ = _ => destruct a as [ob|] eqn:Eo; [|discriminate] end. cbn [bind] in E1. apply Ok2 in E1. destruct E1 as [_ <-].
      apply in_app_or in Hin. destruct Hin as [Hin|Hin].
      - exfalso. destruct (c_broker cfg); [destruct (cstring tx); [|discriminate]; apply Ok1 in Eo; subst ob; destruct Hin as [Hin|[]]; discriminate|apply Ok1 in Eo; subst ob; contradiction].
      - destruct (c_mqtt cfg); [|contradiction]. unfold mqtt_publish in Hin. destruct (_ <=? _); [|contradiction]. destruct Hin as [Hin|[]]. congruence. }
    split; intros Hin; apply K in Hin; discriminate.
Qed.

(** ** C91.  Every alignment of 22 or more points makes the next 500 ms task write outside the buffer ("%.2f" has at least four characters). *)
Theorem C91_many_points_overflow_refuted : forall d e, sized N d -> c_sensor cfg = true -> (forall v, 4 <= length (ftext 2 v))%nat ->
  (22 <= length (stored (t_align (d_tel d))))%nat -> the_task N d e = Task500ms ->
  (forall r, loop d e <> Ok r) /\
  (forall da tp, length (d_tx da) = 256%nat -> publish_points da tp (actual_points d) = UB OobWrite).
Proof.
  intros d e S Hc Hf Hn Ht. assert (K : (254 < length (points_text N ftext (actual_points d)))%nat).
  { pose proof (points_text_long N ftext (actual_points d) Hf) as H. rewrite map_length in H. lia. }
  split; [|intros; now apply publish_points_over].
  intros [d' o] E. rewrite loop_run, Ht in E. cbn [M_Main.run_task] in E.
  destruct (task_500_points _ _ _ _ _ _ _ _ _ _ _ E S Hc) as (dx & ty & da & oa & db & ob & dc & oc & ox & oy & _ & Lx & Ea & Eb & _).
  assert (La : length (d_tx da) = 256%nat) by (apply publish_text_frame in Ea; destruct Ea as [(t & -> & Lt) _]; cbn [set_tx d_tx]; congruence).
  cbn [set_timers d_tel] in Eb. rewrite publish_points_over in Eb by assumption. discriminate.
Qed.

(** ** C92.  As soon as there is a point, what is published is not JSON (it ends in ",]"). *)
Theorem C92_published_points_not_json_refuted : forall d e d' o payload, loop d e = Ok (d', o) -> sized N d -> stored (t_align (d_tel d)) <> [] ->
  In (MqttOut "home/appliance/telescope/actual" payload) o \/ In (MqttOut "home/appliance/telescope/reference" payload) o -> ~ json payload.
Proof.
  intros d e d' o payload E S Hn Hin. destruct (C57_published_points d e d' o payload E S) as [H1 H2].
  assert (exists ps, ps <> [] /\ payload = str "[" ++ list_text ps ++ str "]") as (ps & Hp & ->).
  { destruct Hin as [Hin|Hin]; [exists (actual_points d)|exists (reference_points d)]; (split; [|auto]); destruct (stored (t_align (d_tel d))); [contradiction|discriminate|contradiction|discriminate]. }
  rewrite list_text_eq. destruct (points_text_comma N ftext ps Hp) as (l & ->).
  match goal with |- ~ json ?x => replace x with ((91 :: l) ++ [44; 93]) end; [apply trailing_comma|].
  change (str "]") with [93]. change (str "[") with [91]. rewrite <- !app_assoc. reflexivity.
Qed.
Theorem C92_empty_list_is_json_partial : json (str "[" ++ list_text [] ++ str "]").
Proof.
  exists [], [91; 93], []. split; [constructor|]. split; [exact (j_array0 [] (Forall_nil _))|]. split; [constructor|reflexivity].
Qed.

(** ** C93.  The built-in broker gets a C string, but no NUL is written behind the ']': the rest of the text formatted before is sent too. *)
Theorem C93_broker_gets_stale_text_refuted : forall d e d' o, loop d e = Ok (d', o) -> sized N d -> c_sensor cfg = true -> c_broker cfg = true ->
  the_task N d e = Task500ms -> stored (t_align (d_tel d)) = [] -> numVertices (t_align (d_tel d)) = 0 -> tris (t_align (d_tel d)) = [] ->
  exists ty, In (BrokerOut "home/appliance/telescope/actual" (str "[]vertices" ++ [34] ++ str ":0," ++ [34] ++ str "triangles" ++ [34] ++ str ":0, " ++ [34] ++ str "type" ++ [34] ++ str ": " ++ itext ty ++ str "}")) o /\ 0 <= ty <= 4.
Proof.
  intros d e d' o E S Hc Hb Ht Hs Hv Htr. rewrite loop_run, Ht in E. cbn [M_Main.run_task] in E.
  destruct (task_500_points _ _ _ _ _ _ _ _ _ _ _ E S Hc) as (dx & ty & da & oa & db & ob & dc & oc & ox & oy & _ & Lx & Ea & Eb & _ & -> & _).
  cbn [set_timers d_tel] in Ea, Eb. rewrite Hs in Eb. cbn [map] in Eb.
  exists (type_number ty). split; [|destruct ty; cbn; lia]. apply in_or_app. right. apply in_or_app. left.
  unfold publish_text in Ea.
  assert (Ea1 : d_tx da = alignment_text N (t_align (d_tel d)) ty ++ 0 :: skipn (Datatypes.S (length (alignment_text N (t_align (d_tel d)) ty))) (d_tx dx)).
  { assert (Hl : (length (alignment_text N (t_align (d_tel d)) ty) < 256)%nat).
    { unfold alignment_text. rewrite Hv. unfold numTriangles. rewrite Htr. destruct ty; vm_compute; lia. }
    rewrite snprintf_fits in Ea by lia. cbn [bind] in Ea. destruct (publish_tx _ _ _ _); [|discriminate]. cbn [bind] in Ea. apply Ok2 in Ea. destruct Ea as [<- _].
    cbn [set_tx d_tx]. unfold written. reflexivity. }
  rewrite publish_points_fits in Eb; [|rewrite Ea1|cbn; lia].
  2: { rewrite app_length. cbn [length]. rewrite skipn_length, Lx. unfold alignment_text. rewrite Hv. unfold numTriangles. rewrite Htr. destruct ty; reflexivity. }
  unfold publish_tx in Eb. rewrite Hb in Eb. destruct (cstring _) as [s|] eqn:Es; [|discriminate]. cbn [bind] in Eb. apply Ok2 in Eb. destruct Eb as [_ <-].
  apply in_or_app. right. left. f_equal. unfold cstring in Es. destruct (find_char 0 _) in Es; [|discriminate]. apply Ok1 in Es. subst s.
  unfold bracketed. rewrite points_text_nil. cbn [app length Nat.add]. rewrite Ea1. unfold alignment_text. rewrite Hv. unfold numTriangles. rewrite Htr.
  destruct ty; reflexivity.
Qed.
End Device.

(** The hypotheses of C91 can be met: a history of 22 syncs leads to 22 stored points (IEEE double). *)
From Verif Require Import P_AlignWitness.
From Coq Require Import Strings.Ascii.
Definition scattered : list (Z * Z) := map (fun k => ((k * 37) mod 101 * 3, (k * k * 17 + 5 * k) mod 83 - 10)) (zseq 22).
Definition scattered_syncs : list (op NumSF) :=
  flat_map (fun '(x, y) => sync (mkadd (fz x) (fz y) (fz (x + 2)) (fz (y + 1)))) scattered.
Example C91_22_points_reachable :
  match runSF scattered_syncs with Ok a => Some (length (stored a), numVertices a, numTriangles a) | UB _ => None end = Some (22%nat, 22, 35).
Proof. vm_compute. reflexivity. Qed.
(** C57, C92, C93: passes of a device with a sensor in which the 500 ms task publishes; here every number is printed as 12.50
    and the trigonometric functions are constant (they are parameters of the model). *)
Definition T0 : Trig NumSF := MkTrig NumSF (fun _ => fz 0) (fun _ => fz 1) (fun _ _ => fz 0) (fz 3).
Definition ft0 : nat -> F NumSF -> list Z := fun _ _ => str "12.50".
Definition tele0 (ops : list (op NumSF)) : option (telescope NumSF) := match runSF ops with Ok a => Some (Tele a (Pt (fz 0) (fz 0)) true) | UB _ => None end.
Definition env500 : env NumSF := Env NumSF 600000 (fz 0, fz 0, fz 0) (0, 0) true true true None [] [] [] true (fz 20).
Definition dev500 (t : telescope NumSF) : dev NumSF :=
  set_timers NumSF (set_tel NumSF (boot NumSF) t) (Timers 600000 600000 600000 0 0 0 0).
Definition outputs (cfg : config) (ops : list (op NumSF)) : option (list (string * string)) :=
  match tele0 ops with
  | Some t =>
      match loop NumSF T0 esp32 strict_iso lcSF (insertion_sort NumSF) (Ok (fz 0)) (Some (fz 0, fz 0)) ft0 true cfg (dev500 t) env500 with
      | Ok (_, o) => Some (flat_map (fun x => match x with
          | MqttOut tp p | BrokerOut tp p => if (String.eqb tp (topic "actual") || String.eqb tp (topic "alignment"))%bool
              then [(tp, string_of_list_ascii (map (fun c => Ascii.ascii_of_nat (Z.to_nat c)) p))] else []
          | _ => [] end) o)
      | UB _ => None
      end
  | None => None
  end.
Example C57_C92_nonvacuous : outputs (Config true true true false) (sync (mkadd (fz 10) (fz 20) (fz 11) (fz 21))) =
  Some [("home/appliance/telescope/alignment", "{""vertices"":1,""triangles"":0, ""type"": 1}"); ("home/appliance/telescope/actual", "[[12.50,12.50],]")]%string.
Proof. vm_compute. reflexivity. Qed.
Example C93_nonvacuous : outputs (Config true true false true) [] =
  Some [("home/appliance/telescope/alignment", "{""vertices"":0,""triangles"":0, ""type"": 0}");
        ("home/appliance/telescope/actual", "[]vertices"":0,""triangles"":0, ""type"": 0}")]%string.
Proof. vm_compute. reflexivity. Qed.
Example C91_nonvacuous : outputs (Config true true true false) scattered_syncs = None.
Proof.
  pose proof C91_22_points_reachable as H. unfold outputs, tele0. destruct (runSF scattered_syncs) as [a|]; [|discriminate]. 
  assert (Hl : (22 <= length (stored a))%nat) by (assert (X : forall (x x' : nat) (y y' z z' : Z), Some (x, y, z) = Some (x', y', z') -> x = x') by (intros; congruence); apply X in H; lia).
  match goal with |- match ?l with _ => _ end = _ => destruct l as [[d' o]|] eqn:E; [exfalso|reflexivity] end.
  revert E. apply C91_many_points_overflow_refuted; try reflexivity; [split; reflexivity|intros; cbn; lia|exact Hl].
Qed.
Print Assumptions C57_in_bounds_exactly. Print Assumptions C57_published_points. Print Assumptions C91_many_points_overflow_refuted.
Print Assumptions C92_published_points_not_json_refuted. Print Assumptions C93_broker_gets_stale_text_refuted.
