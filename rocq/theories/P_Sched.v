(** The scheduler inside loop(). *)
From Verif Require Import Base Num M_Main.

Definition timer_of (k : timers) (t : task) : Z :=
  match t with
  | Filter => k_filter k | Task25ms => k_25ms k | Task100ms => k_100ms k | Task500ms => k_500ms k
  | Task1s => k_1s k | Task2s => k_2s k | Task30s => k_30s k | Idle => 0
  end.
Definition period (t : task) : Z :=
  match t with
  | Filter => 20000 | Task25ms => 25000 | Task100ms => 100000 | Task500ms => 500000
  | Task1s => 1000000 | Task2s => 2000000 | Task30s => 30000000 | Idle => 0
  end.
Definition before (t : task) : list task :=
  match t with
  | Filter => [] | Task25ms => [Filter] | Task100ms => [Filter; Task25ms] | Task500ms => [Filter; Task25ms; Task100ms]
  | Task1s => [Filter; Task25ms; Task100ms; Task500ms] | Task2s => [Filter; Task25ms; Task100ms; Task500ms; Task1s]
  | Task30s => [Filter; Task25ms; Task100ms; Task500ms; Task1s; Task2s]
  | Idle => [Filter; Task25ms; Task100ms; Task500ms; Task1s; Task2s; Task30s]
  end.
Lemma task_eq_dec (a b : task) : {a = b} + {a <> b}.
Proof. decide equality. Defined.

Ltac sel := unfold select; repeat match goal with |- context[if due ?a ?b ?c then _ else _] => let E := fresh "E" in destruct (due a b c) eqn:E end.
Lemma select_due k now t : fst (select k now) = t -> t <> Idle -> due now (timer_of k t) (period t) = true.
Proof. sel; intros <- H; try assumption. contradiction. Qed.
Lemma select_before k now t u : fst (select k now) = t -> In u (before t) -> due now (timer_of k u) (period u) = false.
Proof. sel; intros <- H; cbn [fst before In] in H; repeat (destruct H as [<-|H]; [assumption|]); contradiction. Qed.
Lemma select_timer k now u : timer_of (snd (select k now)) u = if task_eq_dec (fst (select k now)) u then (if task_eq_dec u Idle then 0 else now) else timer_of k u.
Proof. sel; destruct u; reflexivity. Qed.
Lemma select_not_later k now t : t <> Idle -> due now (timer_of k t) (period t) = true -> In (fst (select k now)) (t :: before t).
Proof.
  intros Ht Hd. sel; destruct t; cbn [fst before In timer_of period] in *; try congruence; intuition congruence.
Qed.
Lemma u32_diff a b : u32 (u32 a - u32 b) = u32 (a - b).
Proof. unfold u32. rewrite <- Zminus_mod. reflexivity. Qed.
Lemma due_true_time a b p : b <= a -> due (u32 a) (u32 b) p = true -> a - b > p.
Proof.
  intros H E. unfold due in E. rewrite u32_diff in E. apply Z.ltb_lt in E. unfold u32 in E.
  pose proof (Z.mod_le (a - b) 4294967296). lia.
Qed.
Lemma true_time_due a b p : 0 <= a - b < 4294967296 -> a - b > p -> due (u32 a) (u32 b) p = true.
Proof. intros H E. unfold due. rewrite u32_diff. unfold u32. rewrite Z.mod_small by lia. apply Z.ltb_lt. lia. Qed.

(** the tasks run by passes at true times (microseconds since boot, not wrapped) *)
Fixpoint schedule (k : timers) (times : list Z) : list task :=
  match times with
  | [] => []
  | t :: times => let '(task, k) := select k (u32 t) in task :: schedule k times
  end.
Fixpoint timers_after (k : timers) (times : list Z) : timers :=
  match times with [] => k | t :: times => timers_after (snd (select k (u32 t))) times end.
Fixpoint nondecreasing (from : Z) (times : list Z) : Prop :=
  match times with [] => True | t :: times => from <= t /\ nondecreasing t times end.

Lemma nondecreasing_nth from times : nondecreasing from times -> forall i x, nth_error times i = Some x -> from <= x.
Proof.
  revert from; induction times as [|t times IH]; intros from H [|i] x E; cbn [nth_error nondecreasing] in *; try discriminate.
  - injection E as <-. lia.
  - destruct H as [H1 H2]. specialize (IH t H2 i x E). lia.
Qed.

(** last [r]: the task's timer holds the wrapped value of the true time r *)
Lemma not_early_from t : t <> Idle -> forall times k r from i x, timer_of k t = u32 r -> r <= from -> nondecreasing from times ->
  nth_error times i = Some x -> nth_error (schedule k times) i = Some t -> x - r > period t.
Proof.
  intros Ht. induction times as [|y times IH]; intros k r from i x Hk Hr Hn Hx Hs; [destruct i; discriminate|].
  cbn [nondecreasing] in Hn. destruct Hn as [Hn1 Hn2]. cbn [schedule] in Hs. destruct (select k (u32 y)) as [task k'] eqn:E.
  destruct i as [|i]; cbn [nth_error] in Hx, Hs.
  - injection Hx as <-. injection Hs as ->. apply due_true_time; [lia|]. rewrite <- Hk. apply select_due; [rewrite E; reflexivity|exact Ht].
  - pose proof (select_timer k (u32 y) t) as S. rewrite E in S. cbn [fst snd] in S.
    destruct (task_eq_dec task t) as [->|Hne].
    + destruct (task_eq_dec t Idle) as [|_]; [contradiction|].
      specialize (IH k' y y i x S ltac:(lia) Hn2 Hx Hs). lia.
    + rewrite Hk in S. apply (IH k' r y i x S ltac:(lia) Hn2 Hx Hs).
Qed.
Lemma not_early t : t <> Idle -> forall times k from i j x y, nondecreasing from times -> (i < j)%nat ->
  nth_error times i = Some x -> nth_error times j = Some y ->
  nth_error (schedule k times) i = Some t -> nth_error (schedule k times) j = Some t -> y - x > period t.
Proof.
  intros Ht. induction times as [|z times IH]; intros k from i j x y Hn Hij Hx Hy Hi Hj; [destruct i; discriminate|].
  cbn [nondecreasing] in Hn. destruct Hn as [Hn1 Hn2]. cbn [schedule] in Hi, Hj. destruct (select k (u32 z)) as [task k'] eqn:E.
  destruct j as [|j]; [lia|]. destruct i as [|i]; cbn [nth_error] in *.
  - injection Hx as <-. injection Hi as ->. pose proof (select_timer k (u32 z) t) as S. rewrite E in S. cbn [fst snd] in S.
    destruct (task_eq_dec t t) as [_|]; [|contradiction]. destruct (task_eq_dec t Idle) as [|_]; [contradiction|].
    apply (not_early_from t Ht times k' z z j y S ltac:(lia) Hn2 Hy Hj).
  - apply (IH k' z i j x y Hn2 ltac:(lia) Hx Hy Hi Hj).
Qed.

(** liveness by counting *)
Lemma schedule_within t : t <> Idle -> forall avail times k r from t0 t1,
  timer_of k t = u32 r -> r <= t0 -> t0 - r > period t -> t1 - r < 4294967296 -> t1 - t0 <= 20000 -> t0 <= from ->
  nondecreasing from times -> (forall x, In x times -> x <= t1) ->
  NoDup avail -> incl avail (before t) ->
  (forall u, In u (before t) -> ~ In u avail -> exists q, t0 <= q <= from /\ timer_of k u = u32 q) ->
  (length avail < length times)%nat -> In t (schedule k times).
Proof.
  intros Ht avail. remember (length avail) as n eqn:En. revert avail En.
  induction n as [|n IH]; intros avail En times k r from t0 t1 Hk Hr Hdue Hspan Hwin Hfrom Hmono Hle Hnd Hincl Hdone Hlen.
  all: destruct times as [|x times]; [cbn [length] in Hlen; lia|].
  all: cbn [nondecreasing] in Hmono; destruct Hmono as [Hm1 Hm2]; pose proof (Hle x (or_introl eq_refl)) as Hx1.
  all: cbn [schedule]; destruct (select k (u32 x)) as [task k'] eqn:E.
  all: assert (Hin : In task (t :: before t)) by
      (change task with (fst (task, k')); rewrite <- E; apply select_not_later; [exact Ht|]; rewrite Hk; apply true_time_due; lia).
  all: assert (Hdt : task <> Idle -> due (u32 x) (timer_of k task) (period task) = true) by
      (intros Hi; apply select_due; [rewrite E; reflexivity|exact Hi]).
  all: destruct (task_eq_dec task t) as [->|Hne]; [left; reflexivity|].
  all: destruct Hin as [Hin|Hin]; [congruence|].
  all: assert (Hni : task <> Idle) by (intros ->; destruct t; cbn [before In] in Hin; try (repeat (destruct Hin as [Hin|Hin]; [discriminate|]); contradiction); congruence).
  all: assert (Hav : In task avail).
  1,3: destruct (in_dec task_eq_dec task avail) as [|Hno]; [assumption|exfalso];
       destruct (Hdone task Hin Hno) as (q & Hq & Eq); specialize (Hdt Hni); rewrite Eq in Hdt;
       apply due_true_time in Hdt; [|lia]; assert (20000 <= period task) by (destruct task; cbn [period]; try lia; congruence); lia.
  - destruct avail; [contradiction|discriminate].
  - right.
    destruct (in_split task avail Hav) as (a & b & ->).
    assert (Hnd' : NoDup (a ++ b)) by (apply NoDup_remove_1 in Hnd; exact Hnd).
    assert (Hnotin : ~ In task (a ++ b)) by (apply NoDup_remove_2 in Hnd; exact Hnd).
    rewrite app_length in En. cbn [length] in En, Hlen.
    pose proof (fun u => select_timer k (u32 x) u) as ST. rewrite E in ST. cbn [fst snd] in ST.
    apply (IH (a ++ b)) with (r := r) (from := x) (t0 := t0) (t1 := t1); try assumption; try lia.
    + rewrite app_length. lia.
    + rewrite ST. destruct (task_eq_dec task t); [contradiction|]. exact Hk.
    + intros y Hy. apply Hle. right. exact Hy.
    + intros u Hu. apply Hincl. apply in_app_iff in Hu. apply in_app_iff. cbn [In]. tauto.
    + intros u Hu Hun. rewrite ST. destruct (task_eq_dec task u) as [<-|Hne'].
      * destruct (task_eq_dec task Idle) as [|_]; [contradiction|]. exists x. split; [lia|reflexivity].
      * destruct (Hdone u Hu) as (q & Hq & Eq).
        -- intros Hc. apply Hun. apply in_app_iff in Hc. apply in_app_iff. cbn [In] in Hc. destruct Hc as [|[|]]; [tauto|contradiction|tauto].
        -- exists q. split; [lia|exact Eq].
Qed.
Lemma before_nodup t : NoDup (before t).
Proof. destruct t; cbn [before]; repeat (apply NoDup_cons; [cbn; intuition discriminate|]); apply NoDup_nil. Qed.
