(** C53, C82: the accelerometer mean. *)
From Verif Require Import Base Num M_Imu P_Round P_Imu.
From Coq Require Import Permutation Reals Lra.
From Flocq Require Import Core.
Open Scope Z_scope.

(** Specification: a history of samples (x, y, z); [xs], [ys], [zs] are its components.
    [last50 h] are the last 50 elements of [h], [feed s h] takes all samples of [h] in order. *)
Definition axis {A} (k : nat) (h : list (A * A * A)) : list A :=
  map (fun '(x, y, z) => match k with O => x | 1%nat => y | _ => z end) h.
Definition mean_of (l : list R) : R := (sumR l / IZR (Z.of_nat (length l)))%R.

Lemma comp_axis {N : Num} (k : nat) (l : list (F N * F N * F N)) : (k < 3)%nat ->
  map (comp3 N (Z.of_nat k)) l = axis k l.
Proof.
  intros Hk. apply map_ext. intros [[x y] z]. destruct k as [|[|[|k]]]; try reflexivity. lia.
Qed.

Lemma fold_axis (k : nat) (l : list (F NumR * F NumR * F NumR)) : (k < 3)%nat ->
  fold_left (fun s t => f32 NumR (fadd NumR s (comp3 NumR (Z.of_nat k) t))) l (fZ NumR 0) = sumR (axis k l).
Proof.
  intros Hk. etransitivity; [exact (fold_sum l (Z.of_nat k) 0%R)|]. rewrite Rplus_0_l. f_equal. exact (comp_axis (N := NumR) k l Hk).
Qed.

(** Whatever the arithmetic: no out-of-bounds access, and the result is the float mean over a rotation of
    the last 50 samples. *)
Theorem C53_float_mean_of_last_50 : forall (N : Num) (h : list (F N * F N * F N)), (50 <= length h)%nat ->
  exists s older newer, feed N (imu_init N) h = Ok s /\ last50 N h = older ++ newer /\
    getMeanAcc N s = Ok (float_mean N 0 (newer ++ older), float_mean N 1 (newer ++ older), float_mean N 2 (newer ++ older)).
Proof.
  intros N h Hh.
  destruct (feed_ring N h (imu_init N) (repeat (zero3 N) 50)) as (s & F1 & R1).
  - cbn; lia.
  - exact (ring_init N).
  - destruct (mean_spec N s _ R1) as (A & B & E & M). exists s, B, A. split; [exact F1|]. split; [|exact M].
    rewrite <- E. unfold last50. rewrite app_length, repeat_length, skipn_app, repeat_length.
    rewrite (skipn_all2 (repeat (zero3 N) 50)) by (rewrite repeat_length; lia). cbn [app]. f_equal. lia.
Qed.
(** Exact arithmetic: the mean of exactly the last 50 samples. *)
Theorem C53_mean_of_last_50 : forall (h : list (F NumR * F NumR * F NumR)), (50 <= length h)%nat ->
  exists s, feed NumR (imu_init NumR) h = Ok s /\
    getMeanAcc NumR s = Ok (mean_of (axis 0 (last50 NumR h)), mean_of (axis 1 (last50 NumR h)), mean_of (axis 2 (last50 NumR h))).
Proof.
  intros h Hh. destruct (C53_float_mean_of_last_50 NumR h Hh) as (s & B & A & F1 & E & M). exists s. split; [exact F1|]. rewrite M.
  assert (HL : length (last50 NumR h) = 50%nat) by (unfold last50; rewrite skipn_length; lia).
  assert (G : forall k, (k < 3)%nat -> float_mean NumR (Z.of_nat k) (A ++ B) = mean_of (axis k (last50 NumR h))).
  { intros k Hk. unfold float_mean, mean_of. rewrite (fold_axis k (A ++ B) Hk). cbn [NumR f32 fdiv fZ].
    assert (EL : length (@axis R k (last50 NumR h)) = 50%nat) by (unfold axis; rewrite map_length; exact HL).
    set (n := length _) in |- *. replace n with 50%nat by (symmetry; exact EL). clear n. f_equal.
    apply sumR_perm. unfold axis. apply Permutation_map. rewrite E. apply Permutation_app_comm. }
  rewrite <- (G 0%nat), <- (G 1%nat), <- (G 2%nat) by lia. reflexivity.
Qed.
(** IEEE arithmetic: within 2^-13 m/s^2 of it for the sensor's range of +-20 m/s^2. *)
Theorem C53_rounding : forall (h : list (F NumB * F NumB * F NumB)), (50 <= length h)%nat ->
  (forall t, In t h -> let '(x, y, z) := t in Rabs x <= 20 /\ Rabs y <= 20 /\ Rabs z <= 20)%R ->
  exists s x y z, feed NumB (imu_init NumB) h = Ok s /\ getMeanAcc NumB s = Ok (x, y, z) /\
    (Rabs (x - mean_of (axis 0 (last50 NumB h))) <= bpow radix2 (-13) /\
     Rabs (y - mean_of (axis 1 (last50 NumB h))) <= bpow radix2 (-13) /\
     Rabs (z - mean_of (axis 2 (last50 NumB h))) <= bpow radix2 (-13))%R.
Proof.
  intros h Hh Hr. destruct (C53_float_mean_of_last_50 NumB h Hh) as (s & B & A & F1 & E & M).
  exists s. do 3 eexists. split; [exact F1|]. split; [exact M|].
  assert (HL : length (last50 NumB h) = 50%nat) by (unfold last50; rewrite skipn_length; lia).
  assert (HAB : length (A ++ B) = 50%nat) by (rewrite app_length, Nat.add_comm, <- app_length, <- E; exact HL).
  assert (G : forall k, (k < 3)%nat -> (Rabs (float_mean NumB (Z.of_nat k) (A ++ B) - mean_of (axis k (last50 NumB h))) <= bpow radix2 (-13))%R).
  { intros k Hk.
    assert (EM : mean_of (axis k (last50 NumB h)) = (sumR (axis k (A ++ B)) / 50)%R).
    { unfold mean_of. set (n := length _). replace n with 50%nat by (unfold n, axis; rewrite map_length; symmetry; exact HL). clear n.
      apply (f_equal (fun u => (u / 50)%R)). apply sumR_perm. unfold axis. apply Permutation_map. rewrite E. apply Permutation_app_comm. }
    assert (EF : float_mean NumB (Z.of_nat k) (A ++ B) = b32 (b64 (fold_left (fun s0 v => b32 (b64 (s0 + v))) (axis k (A ++ B)) 0%R / 50))).
    { unfold float_mean. cbn [NumB f32 fdiv fadd fZ].
      rewrite (b64_of_int 50) by reflexivity. rewrite (b32_of_int 50) by reflexivity. rewrite (b64_of_int 0) by reflexivity.
      apply (f_equal (fun u => b32 (b64 (u / 50)))).
      pose proof (comp_axis (N := NumB) k (A ++ B) Hk) as EC.
      transitivity (fold_left (fun s0 v => b32 (b64 (s0 + v))) (map (comp3 NumB (Z.of_nat k)) (A ++ B)) 0%R); [|rewrite EC; reflexivity].
      generalize 0%R. generalize (A ++ B). clear.
      intros l; induction l as [|t l IH]; intros a; [reflexivity|]. cbn [fold_left map]. apply IH. }
    rewrite EM, EF. clear EM EF.
    destruct (float_sum_error (axis k (A ++ B))) as [B1 B2].
    - unfold axis. rewrite map_length. lia.
    - apply Forall_forall. intros v Hv. unfold axis in Hv. apply in_map_iff in Hv. destruct Hv as ([[x y] z] & <- & Hi).
      assert (Hi2 : In (x, y, z) h).
      { assert (In (x, y, z) (B ++ A)) by (apply in_app_iff; apply in_app_iff in Hi; tauto).
        rewrite <- E in H. unfold last50 in H. rewrite <- (firstn_skipn (length h - 50) h). apply in_or_app. right. exact H. }
      specialize (Hr _ Hi2). cbn in Hr. destruct k as [|[|k]]; tauto.
    - match type of B2 with context[INR ?n] => assert (El : n = 50%nat) by (unfold axis; rewrite map_length; exact HAB) end.
      rewrite El in B1, B2. replace (INR 50) with 50%R in B1, B2 by (rewrite INR_IZR_INZ; reflexivity).
      set (f := fold_left _ _ _) in *. clearbody f. set (t := sumR _) in *. clearbody t.
      change (bpow radix2 (-14)) with (/ 16384)%R in B1. change (bpow radix2 (-13)) with (/ 8192)%R.
      apply Rabs_le_inv in B1, B2.
      assert (C1 : (Rabs (b64 (f / 50) - f / 50) <= bpow radix2 (5 - 53))%R).
      { apply b64_error; [lia|]. change (bpow radix2 5) with 32%R. apply Rabs_le. lra. }
      change (bpow radix2 (5 - 53)) with (/ 281474976710656)%R in C1. apply Rabs_le_inv in C1.
      assert (C2 : (Rabs (b32 (b64 (f / 50)) - b64 (f / 50)) <= bpow radix2 (5 - 24))%R).
      { apply b32_error; [lia|]. change (bpow radix2 5) with 32%R. apply Rabs_le. lra. }
      change (bpow radix2 (5 - 24)) with (/ 524288)%R in C2. apply Rabs_le_inv in C2.
      apply Rabs_le. lra. }
  split; [exact (G 0%nat ltac:(lia))|]. split; [exact (G 1%nat ltac:(lia))|exact (G 2%nat ltac:(lia))].
Qed.

(** C82: during the first second (fewer than 50 samples) the missing samples count as zero. *)
Theorem C82_start_up_mean_partial : forall (h : list (F NumR * F NumR * F NumR)), (length h < 50)%nat ->
  exists s, feed NumR (imu_init NumR) h = Ok s /\
    getMeanAcc NumR s = Ok (sumR (axis 0 h) / 50, sumR (axis 1 h) / 50, sumR (axis 2 h) / 50)%R.
Proof.
  intros h Hh. destruct (feed_ring NumR h (imu_init NumR) (repeat (zero3 NumR) 50)) as (s & F1 & R1).
  - cbn; lia.
  - exact (ring_init NumR).
  - destruct (mean_spec NumR s _ R1) as (A & B & E & M). exists s. split; [exact F1|]. rewrite M.
    assert (G : forall k, (k < 3)%nat -> float_mean NumR (Z.of_nat k) (A ++ B) = (sumR (axis k h) / 50)%R).
    { intros k Hk. unfold float_mean. rewrite (fold_axis k (A ++ B) Hk). cbn [NumR f32 fdiv fZ]. f_equal.
      transitivity (sumR (axis k (B ++ A))). { apply sumR_perm. unfold axis. apply Permutation_map. apply Permutation_app_comm. }
      rewrite <- E. unfold last50. rewrite app_length, repeat_length, skipn_app, repeat_length.
      replace (50 + length h - 50 - 50)%nat with 0%nat by lia. cbn [skipn].
      assert (G0 : forall n, sumR (axis k (skipn n (repeat (zero3 NumR) 50) ++ h)) = sumR (axis k h)).
      { intros n. unfold axis. rewrite map_app. generalize (map (fun '(x, y, z) => match k with O => x | 1%nat => y | _ => z end) h) as r.
        assert (HZ : Forall (fun t => t = zero3 NumR) (skipn n (repeat (zero3 NumR) 50))).
        { apply Forall_forall. intros x Hx. apply (repeat_spec 50). rewrite <- (firstn_skipn n). apply in_or_app; right; exact Hx. }
        revert HZ. generalize (skipn n (repeat (zero3 NumR) 50)). intros l HZ r.
        induction HZ as [|t l -> HZ IH]; [reflexivity|]. cbn [map app sumR fold_right]. unfold sumR in *. rewrite IH.
        destruct k as [|[|k]]; cbn; ring. }
      apply G0. }
    change 0 with (Z.of_nat 0). change 1 with (Z.of_nat 1). change 2 with (Z.of_nat 2). rewrite !G by lia. reflexivity.
Qed.
Theorem C82_start_up_mean_refuted : exists (h : list (F NumR * F NumR * F NumR)) s m, (0 < length h)%nat /\
  feed NumR (imu_init NumR) h = Ok s /\ getMeanAcc NumR s = Ok m /\
  m <> (mean_of (axis 0 h), mean_of (axis 1 h), mean_of (axis 2 h)).
Proof.
  destruct (C82_start_up_mean_partial [(1, 1, 1)%R]) as (s & F1 & M); [cbn; lia|].
  exists [(1, 1, 1)%R], s. eexists. split; [cbn; lia|]. split; [exact F1|]. split; [exact M|].
  intros E. injection E as E _ _. unfold mean_of, axis, sumR in E. cbn in E. lra.
Qed.
Example C53_nonvacuous : exists h : list (F NumR * F NumR * F NumR), (50 <= length h)%nat.
Proof. exists (repeat (0, 9.81, 0)%R 51). rewrite repeat_length. lia. Qed.
Print Assumptions C53_mean_of_last_50. Print Assumptions C53_float_mean_of_last_50.
