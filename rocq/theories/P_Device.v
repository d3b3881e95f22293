(** Building concrete device histories. *)
From Verif Require Import Base Num M_Libc P_Libc M_Checkbits M_Linalg M_Helper M_Alignment S_Alignment P_Alignment P_AlignState P_AlignSmall M_Telescope M_Stellarium M_Gnss M_NexStar S_NexStar P_NexStar M_Led M_Imu P_Imu M_Main P_Sched P_Main P_Main2.
From Coq Require Import Strings.String Permutation.
Open Scope Z_scope.
Notation length := List.length.

Section Device.
Context (N : Num) (T : Trig N) (pf : platform) (oor : conv_policy) (lc : libc N).
Context (qsort : list (vpair N) -> list (vpair N)) (m9 : res (F N)) (junk : option (F N * F N)).
Context (ftext : nat -> F N -> list Z) (left_first : bool) (cfg : config).
Notation dev := (dev N). Notation env := (env N). Notation event := (event N).
Notation loop := (loop N T pf oor lc qsort m9 junk ftext left_first cfg).
Notation step := (step N T pf oor lc qsort m9 junk ftext left_first cfg).
Notation history := (history N T pf oor lc qsort m9 junk ftext left_first cfg).
Notation boot := (boot N).

Definition imu_ok (i : imu N) : Prop := exists l, ring N i l /\ length l = 50%nat.
Lemma imu_ok_init : imu_ok (imu_init N).
Proof. exists (repeat (zero3 N) 50). split; [apply ring_init|reflexivity]. Qed.
Lemma imu_ok_step i x y z : imu_ok i -> exists i', accSample N i x y z = Ok i' /\ imu_ok i'.
Proof.
  intros (l & R & L). destruct l as [|h d]; [discriminate|]. destruct (ring_step N i x y z h d R) as (i' & E & R').
  exists i'. split; [exact E|]. exists (d ++ [(x, y, z)]). split; [exact R'|]. rewrite app_length. cbn [length] in *. lia.
Qed.
Lemma imu_ok_pitch d : imu_ok (d_imu d) -> exists p, measure_pitch N T d = Ok p.
Proof.
  intros (l & R & L). destruct (mean_spec N _ _ R) as (A & B & _ & E). unfold measure_pitch. rewrite E. cbn [bind].
  destruct (calibrate_acc N _) as [[x y] z]. eexists; reflexivity.
Qed.

(** a quiet pass: no packet, no message, nothing waiting; the encoder frame 0 is rejected *)
Definition env_at (now : Z) (tcp : option (list Z)) (msgs : list (string * list Z)) (pending serial : list Z) : env :=
  Env N now (fZ N 0, fZ N 0, fZ N 0) (0, 0) true true true tcp msgs pending serial true (fZ N 0).
Definition quiet now := env_at now (Some []) [] [] [].

(** timers that make the filter, the 25 ms and the 100 ms task due at [base] *)
Definition ready (k : timers) (base : Z) : Prop :=
  0 <= base /\ base + 2 < 4294967296 /\ 0 <= k_filter k /\ 0 <= k_25ms k /\ 0 <= k_100ms k /\
  20000 < base - k_filter k /\ 25000 < base - k_25ms k /\ 100000 < base - k_100ms k.
Definition after3 (k : timers) (base : Z) : timers := Timers base (base + 1) (base + 2) (k_500ms k) (k_1s k) (k_2s k) (k_30s k).
Definition three (base : Z) (e : env) : list event := [Pass (quiet base); Pass (quiet (base + 1)); Pass e].

Lemma due_yes now k p : 0 <= now < 4294967296 -> 0 <= k -> 0 <= p -> p < now - k -> due now k p = true.
Proof. intros H1 H2 H0 H3. unfold due, u32. rewrite Z.mod_small by lia. apply Z.ltb_lt. lia. Qed.
Lemma due_no now k p : 0 <= now - k -> now - k < 4294967296 -> now - k <= p -> due now k p = false.
Proof. intros H1 H2 H3. unfold due, u32. rewrite Z.mod_small by lia. apply Z.ltb_ge. lia. Qed.

Lemma cycle d base e : ready (d_timers d) base -> e_now e = base + 2 -> imu_ok (d_imu d) ->
  exists i o, imu_ok i /\ o = (match led_update (d_led d) (base + 1) with Some b => [LedOut b] | None => [] end) /\
    history d (three base e) =
    (do '(d', o') <- task_100ms N T pf oor qsort m9 junk left_first cfg (set_imu N (set_timers N d (after3 (d_timers d) base)) i) e; Ok (d', o ++ o')).
Proof.
  intros (H0 & H1 & H2 & H3 & H4 & H5 & H6 & H7) He Hi.
  assert (Hf : exists i, imu_ok i /\ task_filter N cfg (set_timers N d (Timers base (k_25ms (d_timers d)) (k_100ms (d_timers d)) (k_500ms (d_timers d)) (k_1s (d_timers d)) (k_2s (d_timers d)) (k_30s (d_timers d)))) (quiet base)
     = Ok (set_imu N (set_timers N d (Timers base (k_25ms (d_timers d)) (k_100ms (d_timers d)) (k_500ms (d_timers d)) (k_1s (d_timers d)) (k_2s (d_timers d)) (k_30s (d_timers d)))) i, [])).
  { unfold task_filter. destruct (c_sensor cfg).
    - cbn [quiet env_at e_acc]. cbn [set_timers d_imu]. destruct (imu_ok_step _ (fZ N 0) (fZ N 0) (fZ N 0) Hi) as (i & E & O). rewrite E. exists i. split; [exact O|reflexivity].
    - exists (d_imu d). split; [exact Hi|]. destruct d; reflexivity. }
  destruct Hf as (i & Oi & Ef). exists i. eexists. split; [exact Oi|]. split; [reflexivity|].
  unfold three. cbn [M_Main.history M_Main.step]. unfold M_Main.loop at 1. cbn [quiet env_at e_now]. unfold select at 1.
  rewrite (due_yes base) by lia. cbn [run_task]. fold (quiet base).
  change (task_filter N cfg (set_timers N d (Timers base (k_25ms (d_timers d)) (k_100ms (d_timers d)) (k_500ms (d_timers d)) (k_1s (d_timers d)) (k_2s (d_timers d)) (k_30s (d_timers d)))) (env_at base (Some []) [] [] []))
    with (task_filter N cfg (set_timers N d (Timers base (k_25ms (d_timers d)) (k_100ms (d_timers d)) (k_500ms (d_timers d)) (k_1s (d_timers d)) (k_2s (d_timers d)) (k_30s (d_timers d)))) (quiet base)).
  rewrite Ef. cbn [bind]. unfold M_Main.loop at 1. cbn [set_imu set_timers d_timers e_now env_at]. unfold select at 1. cbn [k_filter k_25ms k_100ms k_500ms k_1s k_2s k_30s].
  rewrite (due_no (base + 1) base) by lia. rewrite (due_yes (base + 1)) by lia. cbn [run_task]. unfold task_25ms. cbn [bind set_timers d_led e_now env_at].
  unfold M_Main.loop at 1. cbn [set_timers d_timers]. unfold select at 1. cbn [k_filter k_25ms k_100ms k_500ms k_1s k_2s k_30s]. rewrite He.
  rewrite (due_no (base + 2) base) by lia. rewrite (due_no (base + 2) (base + 1)) by lia. rewrite (due_yes (base + 2)) by lia. cbn [run_task].
  match goal with |- context[task_100ms N T pf oor qsort m9 junk left_first cfg ?x e] => change x with (set_imu N (set_timers N d (after3 (d_timers d) base)) i) end.
  destruct (task_100ms N T pf oor qsort m9 junk left_first cfg (set_imu N (set_timers N d (after3 (d_timers d) base)) i) e) as [[d1 o1]|]; [|reflexivity].
  cbn [bind]. rewrite app_nil_r. reflexivity.
Qed.

Lemma cycle100 d base e : ready (d_timers d) base -> e_now e = base + 2 -> imu_ok (d_imu d) ->
  exists i p o, imu_ok i /\ Forall (fun x => exists b, x = LedOut b) o /\
    history d (three base e) =
    (do '(d1, o1) <- tcp_part N T pf oor qsort m9 junk (d_after_read N left_first (set_imu N (set_timers N d (after3 (d_timers d) base)) i) e p) e;
     do '(d2, o2) <- mqtt_part N cfg d1 e;
     let '(d3, o3) := conn_part N cfg (set_led N d2 (led_for N d2 e)) e in Ok (d3, o ++ o1 ++ o2 ++ o3)).
Proof.
  intros H1 H2 H3. destruct (cycle d base e H1 H2 H3) as (i & o & Oi & Eo & E).
  destruct (imu_ok_pitch (set_imu N (set_timers N d (after3 (d_timers d) base)) i) Oi) as [p Ep].
  exists i, p, o. split; [exact Oi|]. split. { rewrite Eo. destruct (led_update _ _); repeat constructor. eexists; reflexivity. }
  rewrite E. unfold task_100ms. rewrite Ep. cbn [bind]. cbv zeta. unfold tcp_part, mqtt_part, conn_part, d_after_read, set_orient.
  match goal with |- (do _ <- (do _ <- ?r; _); _) = (do _ <- ?r2; _) => change r2 with r; destruct r as [[d1 o1]|] end; [|reflexivity]. cbn [bind].
  match goal with |- (do _ <- (do _ <- ?r; _); _) = _ => destruct r as [[d2 o2]|] end; [|reflexivity]. cbn [bind].
  match goal with |- (do _ <- (let '(_, _) := ?r in _); _) = _ => destruct r as [d3 o3] end. cbn [bind]. reflexivity.
Qed.

(** the rejected encoder frame leaves the heading *)
Lemma heading_quiet h now tcp msgs pending serial : filter_heading N h (heading_raw N left_first (env_at now tcp msgs pending serial)) = h.
Proof.
  unfold heading_raw, env_at. cbn [e_spi]. replace (let '(hi, lo) := if left_first then (0, 0) else (0, 0) in Z.lor (Z.shiftl hi 8) lo mod 65536) with 0 by (destruct left_first; reflexivity).
  reflexivity.
Qed.

(** ** alignment with its first point *)
Lemma small_triangulate x j (a : align N) : WF N a -> numVertices a <= 3 -> exists a', TriangulateActual N (Ok x) (Some j) a = Ok a'.
Proof.
  intros HW Hn. destruct (triangulate_actual N x j a HW) as [(a' & E & _)|(Hp & E & _)]; [eauto|].
  exfalso. destruct (small_fits N j (map actual (stored a))) as (r & Er).
  - rewrite map_length, (stored_length N a HW). lia.
  - rewrite Er in E. discriminate.
Qed.
Lemma add_point x j t a b c l : permuting N qsort -> WF N (t_align t) -> numVertices (t_align t) <= 2 ->
  exists t', addReferencePoint N T qsort (Ok x) (Some j) t a b c l = Ok t' /\ WF N (t_align t') /\ t_orient t' = t_orient t /\ t_cal t' = t_cal t /\
    numVertices (t_align t') = numVertices (t_align t) + (if existsb (fun q => same N q (t_orient t)) (map actual (stored (t_align t))) then 0 else 1).
Proof.
  intros Hq HW Hn. unfold addReferencePoint.
  set (h := equatorialToHorizontal N T a b c l). set (r := Pt (az h) (alt h)).
  assert (G : forall a1, WF N a1 -> numVertices a1 <= 3 -> exists a2, TriangulateActual N (Ok x) (Some j) a1 = Ok a2 /\ WF N a2 /\ numVertices a2 = numVertices a1).
  { intros a1 HW1 Hn1. destruct (small_triangulate x j a1 HW1 Hn1) as (a2 & E). exists a2. split; [exact E|].
    destruct (triangulate_actual N x j a1 HW1) as [(a3 & E3 & HW3 & H3)|(_ & _ & E3)]; [|rewrite E3 in E; discriminate].
    rewrite E in E3. injection E3 as <-. split; [exact HW3|]. apply H3. }
  destruct (existsb (fun q => same N q (t_orient t)) (map actual (stored (t_align t)))) eqn:Ed.
  - rewrite addVertexPair_dup by exact Ed. cbn [bind]. destruct (G _ HW ltac:(lia)) as (a2 & -> & W2 & N2). cbn [bind]. eexists. split; [reflexivity|]. cbn [t_align t_orient t_cal].
    split; [exact W2|]. split; [reflexivity|]. split; [reflexivity|]. lia.
  - destruct (addVertexPair_new N qsort (t_align t) (t_orient t) r Hq HW Ed) as (a1 & r' & E & W1 & _ & _ & _ & _ & _ & H63 & _). rewrite E. cbn [bind].
    destruct H63 as [Hn1 _]; [lia|]. destruct (G _ W1 ltac:(lia)) as (a2 & -> & W2 & N2). cbn [bind]. eexists. split; [reflexivity|]. cbn [t_align t_orient t_cal].
    split; [exact W2|]. split; [reflexivity|]. split; [reflexivity|]. lia.
Qed.
End Device.
