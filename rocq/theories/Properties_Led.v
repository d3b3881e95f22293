(** C49, C80, C81: the status LED. *)
From Verif Require Import Base M_Led.

(** Specification: period and on-windows [from, to) of a mode, in milliseconds. *)
Inductive windows : led_mode -> Z -> list (Z * Z) -> Prop :=
| W_off : windows OFF 1 []
| W_on : windows ON 1 [(0, 1)]
| W_10hz : windows BLINK_10HZ 100 [(0, 50)]
| W_1hz : windows BLINK_1HZ 1000 [(0, 500)]
| W_1x : windows FLASH_1X_EVERY_5S 5000 [(4990, 5000)]
| W_2x : windows FLASH_2X_EVERY_5S 5000 [(4550, 4600); (4950, 5000)]
| W_4x : windows FLASH_4X_EVERY_5S 5000 [(3750, 3800); (4150, 4200); (4550, 4600); (4950, 5000)].
(** Microsecond [us] lies in one of the windows. *)
Definition lit (period : Z) (ws : list (Z * Z)) (us : Z) : Prop :=
  exists k a b, In (a, b) ws /\ 1000 * (k * period + a) <= us < 1000 * (k * period + b).

Lemma window_iff period a b us : 0 < period -> 0 <= a -> a < b <= period ->
  ((exists k, 1000 * (k * period + a) <= us < 1000 * (k * period + b)) <-> a <= (us / 1000) mod period < b).
Proof.
  intros Hp Ha Hb. pose proof (Z.div_mod us 1000). pose proof (Z.mod_pos_bound us 1000).
  pose proof (Z.div_mod (us / 1000) period). pose proof (Z.mod_pos_bound (us / 1000) period). split.
  - intros (k & Hk).
    assert (k = us / 1000 / period). { apply (Z.div_unique (us / 1000) period k (us / 1000 - k * period)); [left|]; nia. }
    subst k. nia.
  - intros Hm. exists (us / 1000 / period). nia.
Qed.

Theorem C49_on_exactly_in_windows : forall mode period ws us, windows mode period ws ->
  (led_update mode us = Some true <-> lit period ws us) /\
  (led_update mode us = Some false <-> ~ lit period ws us).
Proof.
  intros mode period ws us Hw.
  assert (Hd : forall b : bool, led_update mode us = Some b -> (b = true <-> lit period ws us)).
  { intros b E.
    assert (HL : lit period ws us <-> Exists (fun ab => fst ab <= (us / 1000) mod period < snd ab) ws).
    { assert (Hok : 0 < period /\ Forall (fun ab => 0 <= fst ab /\ fst ab < snd ab <= period) ws).
      { inversion Hw; subst; split; try lia; repeat (apply Forall_cons; [cbn; lia|]); apply Forall_nil. }
      destruct Hok as [Hp Hok]. unfold lit. split.
      - intros (k & a & b' & Hi & Hk). apply Exists_exists. exists (a, b'). split; [exact Hi|].
        rewrite Forall_forall in Hok. specialize (Hok _ Hi). cbn [fst snd] in *. apply window_iff; try lia. exists k; exact Hk.
      - intros Hx. apply Exists_exists in Hx. destruct Hx as ([a b'] & Hi & Hk). cbn [fst snd] in Hk.
        rewrite Forall_forall in Hok. specialize (Hok _ Hi). cbn [fst snd] in Hok.
        apply window_iff in Hk; try lia. destruct Hk as [k Hk]. exists k, a, b'. auto. }
    rewrite HL. clear HL. revert E.
    inversion Hw; subst; unfold led_update; rewrite ?Exists_cons, ?Exists_nil; cbn [fst snd];
      try (pose proof (Z.mod_pos_bound (us / 1000) 5000)); try (pose proof (Z.mod_pos_bound (us / 1000) 1));
      try (pose proof (Z.mod_pos_bound (us / 1000) 100)); try (pose proof (Z.mod_pos_bound (us / 1000) 1000));
      repeat match goal with |- context[?x <? ?y] => destruct (Z.ltb_spec x y) end;
      intros E; injection E as <-; split; intros; try discriminate; try lia; try reflexivity. }
  assert (Ht : exists b, led_update mode us = Some b).
  { inversion Hw; subst; unfold led_update; repeat match goal with |- context[?x <? ?y] => destruct (x <? y) end; eauto. }
  destruct Ht as [b E]. specialize (Hd b E). rewrite E. destruct Hd as [D1 D2]. destruct b.
  - split; split; intros X.
    + apply D1; reflexivity.
    + reflexivity.
    + discriminate.
    + exfalso. apply X, D1. reflexivity.
  - split; split; intros X.
    + discriminate.
    + apply D2 in X. discriminate.
    + intros Y. apply D2 in Y. discriminate.
    + reflexivity.
Qed.

(** READY leaves the pin alone. *)
Theorem C49_ready_leaves_pin : forall us, led_update READY us = None.
Proof. reflexivity. Qed.

(** A flash of [w] milliseconds is seen by every sequence of updates that starts before it, reaches its end,
    and whose gaps are at most [w] milliseconds. *)
Definition gaps_at_most (g : Z) (times : nat -> Z) : Prop := forall k, times k <= times (S k) <= times k + g.
Theorem C49_flash_seen : forall mode period ws k a b times n, windows mode period ws -> In (a, b) ws ->
  gaps_at_most (1000 * (b - a)) times -> times O < 1000 * (k * period + a) -> 1000 * (k * period + a) <= times n ->
  exists i, (i <= n)%nat /\ 1000 * (k * period + a) <= times i < 1000 * (k * period + b) /\ led_update mode (times i) = Some true.
Proof.
  intros mode period ws k a b times n Hw Hi Hg H0 Hn.
  assert (HX : exists i, (i <= n)%nat /\ 1000 * (k * period + a) <= times i < 1000 * (k * period + b)).
  { induction n as [|n IH].
    - exists O. split; [lia|]. lia.
    - destruct (Z_le_gt_dec (1000 * (k * period + a)) (times n)) as [H|H].
      + destruct (IH H) as (i & H1 & H2). exists i. split; [lia|auto].
      + exists (S n). split; [lia|]. specialize (Hg n). lia. }
  destruct HX as (i & H1 & H2). exists i. split; [exact H1|]. split; [exact H2|].
  apply (C49_on_exactly_in_windows mode period ws (times i) Hw). exists k, a, b. auto.
Qed.
(** 2X and 4X flash two and four times in every period: separate, non-overlapping windows of 50 ms. *)
(** [edges f start n]: how often the LED is switched on (off one millisecond before, on now) within the
    [n] milliseconds from [start] ms *)
Fixpoint edges (f : Z -> bool) (start : Z) (n : nat) : nat :=
  match n with
  | O => O
  | S n => ((if f start && negb (f (Z.pred start)) then 1 else 0) + edges f (Z.succ start) n)%nat
  end.
Definition on_at (mode : led_mode) (ms : Z) : bool := match led_update mode (1000 * ms) with Some b => b | None => false end.
Fixpoint lit_ms (f : Z -> bool) (start : Z) (n : nat) : nat :=
  match n with O => O | S n => ((if f start then 1 else 0) + lit_ms f (Z.succ start) n)%nat end.
Lemma edges_shift f d : (forall x, f (x + d) = f x) -> forall n a, edges f (a + d) n = edges f a n.
Proof.
  intros H. induction n as [|n IH]; intros a; [reflexivity|]. cbn [edges].
  rewrite H. replace (Z.pred (a + d)) with (Z.pred a + d) by lia. rewrite H.
  replace (Z.succ (a + d)) with (Z.succ a + d) by lia. rewrite IH. reflexivity.
Qed.
Lemma lit_shift f d : (forall x, f (x + d) = f x) -> forall n a, lit_ms f (a + d) n = lit_ms f a n.
Proof.
  intros H. induction n as [|n IH]; intros a; [reflexivity|]. cbn [lit_ms].
  rewrite H. replace (Z.succ (a + d)) with (Z.succ a + d) by lia. rewrite IH. reflexivity.
Qed.
Lemma on_period mode k x : In mode [FLASH_1X_EVERY_5S; FLASH_2X_EVERY_5S; FLASH_4X_EVERY_5S] -> on_at mode (x + 5000 * k) = on_at mode x.
Proof.
  intros H. assert (E : forall y, (1000 * y) / 1000 = y) by (intros y; rewrite (Z.mul_comm 1000 y); apply Z.div_mul; lia).
  unfold on_at, led_update. cbv zeta. rewrite !E.
  replace (x + 5000 * k) with (x + k * 5000) by lia. rewrite Z.mod_add by lia.
  destruct H as [<-|[<-|[<-|[]]]]; reflexivity.
Qed.
(** In every period of five seconds the 1X, 2X and 4X patterns switch the LED on once, twice and four times,
    for 10, 100 and 200 milliseconds together. *)
Theorem C49_number_of_flashes : forall k,
  (edges (on_at FLASH_1X_EVERY_5S) (5000 * k) 5000 = 1%nat /\ lit_ms (on_at FLASH_1X_EVERY_5S) (5000 * k) 5000 = 10%nat) /\
  (edges (on_at FLASH_2X_EVERY_5S) (5000 * k) 5000 = 2%nat /\ lit_ms (on_at FLASH_2X_EVERY_5S) (5000 * k) 5000 = 100%nat) /\
  (edges (on_at FLASH_4X_EVERY_5S) (5000 * k) 5000 = 4%nat /\ lit_ms (on_at FLASH_4X_EVERY_5S) (5000 * k) 5000 = 200%nat).
Proof.
  intros k.
  assert (G : forall mode, In mode [FLASH_1X_EVERY_5S; FLASH_2X_EVERY_5S; FLASH_4X_EVERY_5S] ->
    edges (on_at mode) (5000 * k) 5000 = edges (on_at mode) 0 5000 /\ lit_ms (on_at mode) (5000 * k) 5000 = lit_ms (on_at mode) 0 5000).
  { intros mode H. split; [apply (edges_shift (on_at mode) (5000 * k)) with (a := 0)|apply (lit_shift (on_at mode) (5000 * k)) with (a := 0)];
    intros x; apply on_period; exact H. }
  destruct (G FLASH_1X_EVERY_5S) as [-> ->]; [simpl; auto|].
  destruct (G FLASH_2X_EVERY_5S) as [-> ->]; [simpl; auto|].
  destruct (G FLASH_4X_EVERY_5S) as [-> ->]; [simpl; auto|].
  repeat split; vm_compute; reflexivity.
Qed.
(** The LED is on or off for whole milliseconds: counting at millisecond marks loses nothing *)
Theorem C49_millisecond_steps : forall mode us, led_update mode us = led_update mode (1000 * (us / 1000)).
Proof. intros mode us. unfold led_update. cbv zeta. rewrite (Z.mul_comm 1000), Z.div_mul by lia. reflexivity. Qed.

(** C80: the single flash lasts 10 ms, less than the 25 ms between updates: it can be missed for ever. *)
Theorem C80_single_flash_never_seen_refuted : exists times,
  times O = 0 /\ (forall k, 25000 < times (S k) - times k <= 32000) /\
  forall k, led_update FLASH_1X_EVERY_5S (times k) = Some false.
Proof.
  exists (fun k => 31250 * Z.of_nat k). split; [reflexivity|]. split; [intros k; lia|]. intros k.
  apply (C49_on_exactly_in_windows _ _ _ _ W_1x). intros (j & a & b & Hi & Hj).
  destruct Hi as [E|[]]. injection E as <- <-. lia.
Qed.
(** It is always seen only if the updates are at most 10 ms apart. *)
Theorem C80_single_flash_seen_partial : forall k times n, gaps_at_most 10000 times ->
  times O < 1000 * (k * 5000 + 4990) -> 1000 * (k * 5000 + 4990) <= times n ->
  exists i, (i <= n)%nat /\ led_update FLASH_1X_EVERY_5S (times i) = Some true.
Proof.
  intros k times n Hg H0 Hn.
  destruct (C49_flash_seen _ _ _ k 4990 5000 times n W_1x (or_introl eq_refl) Hg H0 Hn) as (i & H1 & _ & H2). eauto.
Qed.

(** C81: the pattern restarts when the 32-bit microsecond counter wraps: with two flashes per 5 s, the second
    flash is cut to 17.3 ms and the next period starts 32.7 ms early. *)
Theorem C81_pattern_broken_at_wrap_refuted : exists t, 0 <= t /\
  led_update FLASH_2X_EVERY_5S (u32 t) = Some false /\ lit 5000 [(4550, 4600); (4950, 5000)] t.
Proof.
  exists 4294967300. split; [lia|]. split; [reflexivity|]. exists 858, 4950, 5000. split; [right; left; reflexivity|]. lia.
Qed.
Theorem C81_pattern_until_wrap_partial : forall mode period ws t, windows mode period ws -> 0 <= t < 4294967296 ->
  (led_update mode (u32 t) = Some true <-> lit period ws t).
Proof.
  intros mode period ws t Hw Ht. unfold u32. rewrite Z.mod_small by lia. apply C49_on_exactly_in_windows. exact Hw.
Qed.
Example C49_nonvacuous : lit 5000 [(4550, 4600); (4950, 5000)] 4560000 /\ ~ lit 5000 [(4550, 4600); (4950, 5000)] 4700000.
Proof.
  split; [exists 0, 4550, 4600; split; [left; reflexivity|lia]|].
  intros (k & a & b & Hi & H). destruct Hi as [E|[E|[]]]; injection E as <- <-; lia.
Qed.
Print Assumptions C49_on_exactly_in_windows. Print Assumptions C49_flash_seen. Print Assumptions C49_number_of_flashes.
