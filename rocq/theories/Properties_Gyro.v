(** C146: averaging gyroscope samples and clipping noise. *)
From Verif Require Import Base Num M_Imu M_Gyro P_Imu P_Main Properties_Imu.
From Coq Require Import Reals Lra.
From Flocq Require Import Core.
Open Scope Z_scope.

(** samples taken one after the other at offsets 0, 1, 2, ... *)
Fixpoint collect (N : Num) (buf : list (F N)) (offset : Z) (events : list (F N * F N * F N)) : res (list (F N)) :=
  match events with [] => Ok buf | e :: r => do b <- gyroSample N buf offset e; collect N b (offset + 1) r end.

Lemma upd_at {A} (a b : list A) x y : upd (a ++ x :: b) (length a) y = Some (a ++ y :: b).
Proof. induction a as [|z a IH]; [reflexivity|]. cbn [app length upd]. rewrite IH. reflexivity. Qed.
Lemma wr_at {A} (a b : list A) x y n : n = length a -> wr (a ++ x :: b) n y = Ok (a ++ y :: b).
Proof. intros ->. unfold wr. rewrite upd_at. reflexivity. Qed.
Lemma flat_len (N : Num) (h : list (F N * F N * F N)) : length (flat N h) = (3 * length h)%nat.
Proof. induction h as [|[[x y] z] h IH]; [reflexivity|]. change (flat N ((x, y, z) :: h)) with (x :: y :: z :: flat N h). cbn [length]. lia. Qed.
Lemma flat_snoc (N : Num) (h : list (F N * F N * F N)) x y z : flat N (h ++ [(x, y, z)]) = flat N h ++ [x; y; z].
Proof. induction h as [|[[a b] c] h IH]; [reflexivity|]. change (a :: b :: c :: flat N (h ++ [(x, y, z)]) = a :: b :: c :: flat N h ++ [x; y; z]). rewrite IH. reflexivity. Qed.
Lemma collect_flat (N : Num) events : forall h rest, (3 * length events <= length rest)%nat ->
  collect N (flat N h ++ rest) (Z.of_nat (length h)) events = Ok (flat N (h ++ events) ++ skipn (3 * length events) rest).
Proof.
  induction events as [|[[x y] z] r IH]; intros h rest Hr; cbn [collect].
  - rewrite app_nil_r. reflexivity.
  - cbn [length] in Hr. destruct rest as [|a [|b [|c rest]]]; cbn [length] in Hr; try lia. unfold gyroSample.
    rewrite (wr_at (flat N h) (b :: c :: rest) a x) by (rewrite flat_len; lia). cbn [bind].
    replace (flat N h ++ x :: b :: c :: rest) with ((flat N h ++ [x]) ++ b :: c :: rest) by (rewrite <- app_assoc; reflexivity).
    rewrite (wr_at (flat N h ++ [x]) (c :: rest) b y) by (rewrite app_length, flat_len; cbn [length]; lia). cbn [bind].
    replace ((flat N h ++ [x]) ++ y :: c :: rest) with ((flat N h ++ [x; y]) ++ c :: rest) by (rewrite <- !app_assoc; reflexivity).
    rewrite (wr_at (flat N h ++ [x; y]) rest c z) by (rewrite app_length, flat_len; cbn [length]; lia). cbn [bind].
    replace ((flat N h ++ [x; y]) ++ z :: rest) with (flat N (h ++ [(x, y, z)]) ++ rest) by (rewrite flat_snoc, <- !app_assoc; reflexivity).
    replace (Z.of_nat (length h) + 1) with (Z.of_nat (length (h ++ [(x, y, z)]))) by (rewrite app_length; cbn [length]; lia).
    rewrite IH by lia. rewrite <- app_assoc. cbn [app length]. f_equal. f_equal. replace (3 * S (length r))%nat with (S (S (S (3 * length r))))%nat by lia. reflexivity.
Qed.
Lemma sum_rest (N : Num) (l rest : list (F N)) k n : forall i acc v, sum_from N l k i n acc = Ok v -> sum_from N (l ++ rest) k i n acc = Ok v.
Proof.
  induction n as [|n IH]; intros i acc v H; cbn [sum_from] in *; [exact H|]. destruct (rd l (Z.to_nat (3 * i + k))) as [w|] eqn:E; [|discriminate].
  cbn [bind] in H. apply rd_ok in E. replace (rd (l ++ rest) (Z.to_nat (3 * i + k))) with (Ok w); [cbn [bind]; apply IH; exact H|].
  symmetry. apply rd_ok. rewrite nth_error_app1; [exact E|]. apply nth_error_Some. congruence.
Qed.

(** whatever the arithmetic: no access outside the buffer, and nothing behind the samples is changed or used *)
Theorem C146_buffer : forall (N : Num) buf events, (3 * length events <= length buf)%nat ->
  exists buf' m, collect N buf 0 events = Ok buf' /\ length buf' = length buf /\ skipn (3 * length events) buf' = skipn (3 * length events) buf /\
    meanVec3 N buf' (Z.of_nat (length events)) = Ok m.
Proof.
  intros N buf ev H. pose proof (collect_flat N ev [] buf H) as E. cbn [app length Z.of_nat] in E. change (flat N [] ++ buf) with buf in E. rewrite E.
  assert (S : forall k, 0 <= k < 3 -> exists v, mean_component N (flat N ev ++ skipn (3 * length ev) buf) (Z.of_nat (length ev)) k = Ok v).
  { intros k Hk. unfold mean_component. rewrite Nat2Z.id. erewrite sum_rest by exact (sum_from_spec N k Hk ev [] (length ev) (fZ N 0) eq_refl). cbn [bind]. eauto. }
  destruct (S 0 ltac:(lia)) as [v0 E0]. destruct (S 1 ltac:(lia)) as [v1 E1]. destruct (S 2 ltac:(lia)) as [v2 E2].
  eexists. eexists. split; [reflexivity|]. split; [rewrite app_length, flat_len, skipn_length; lia|]. split.
  - rewrite skipn_app, flat_len, Nat.sub_diag, skipn_all2 by (rewrite flat_len; lia). reflexivity.
  - unfold meanVec3. rewrite E0, E1, E2. reflexivity.
Qed.
(** exact arithmetic: the mean of every axis *)
Theorem C146_mean : forall buf (events : list (F NumR * F NumR * F NumR)), (0 < length events)%nat -> (3 * length events <= length buf)%nat ->
  exists buf', collect NumR buf 0 events = Ok buf' /\
    meanVec3 NumR buf' (Z.of_nat (length events)) = Ok (mean_of (axis 0 events), mean_of (axis 1 events), mean_of (axis 2 events)).
Proof.
  intros buf ev H0 H. pose proof (collect_flat NumR ev [] buf H) as E. cbn [app length Z.of_nat] in E. change (flat NumR [] ++ buf) with buf in E.
  eexists. split; [exact E|].
  assert (S : forall k, (k < 3)%nat -> mean_component NumR (flat NumR ev ++ skipn (3 * length ev) buf) (Z.of_nat (length ev)) (Z.of_nat k) = Ok (mean_of (axis k ev))).
  { intros k Hk. unfold mean_component. rewrite Nat2Z.id. erewrite sum_rest by exact (sum_from_spec NumR (Z.of_nat k) ltac:(lia) ev [] (length ev) (fZ NumR 0) eq_refl). cbn [bind].
    rewrite (fold_axis k ev Hk). unfold mean_of. cbn [f32 fdiv fZ NumR]. assert (L : length (axis k ev) = length ev) by apply map_length. do 2 f_equal. f_equal. f_equal. exact (eq_sym L). }
  unfold meanVec3. pose proof (S 0%nat ltac:(lia)) as E0. pose proof (S 1%nat ltac:(lia)) as E1. pose proof (S 2%nat ltac:(lia)) as E2.
  cbn [Z.of_nat Pos.of_succ_nat Pos.succ] in E0, E1, E2. cbv zeta in *. rewrite E0. cbn [bind]. rewrite E1. cbn [bind]. rewrite E2. reflexivity.
Qed.
Open Scope R_scope.
(** exact arithmetic: a component within 0.01 rad/s of 0 becomes 0, any other is kept; so nothing moves by more than 0.01 *)
Theorem C146_noise : forall x y z x' y' z' : R, clipGyroNoise NumR (x, y, z) = (x', y', z') ->
  forall v v', In (v, v') [(x, x'); (y, y'); (z, z')] ->
    (-1/100 <= v <= 1/100 -> v' = 0) /\ (v < -1/100 \/ 1/100 < v -> v' = v) /\ Rabs (v' - v) <= 1 / 100.
Proof.
  intros x y z x' y' z' E.
  assert (C : forall v, (-1/100 <= v <= 1/100 -> clip1 NumR v = 0) /\ (v < -1/100 \/ 1/100 < v -> clip1 NumR v = v)).
  { intros v. unfold clip1. cbn [flt fq fabs fZ NumR]. match goal with |- context [Rlt_bool ?a ?b] => destruct (Rlt_bool_spec a b) as [H|H] end; split; intros Hv; try reflexivity.
    - exfalso. change (F NumR) with R in *. revert H. unfold Rabs. destruct (Rcase_abs v); lra.
    - exfalso. change (F NumR) with R in *. revert H. unfold Rabs. destruct (Rcase_abs v); lra. }
  intros v v' Hv. assert (E' : v' = clip1 NumR v).
  { unfold clipGyroNoise in E. injection E as <- <- <-. destruct Hv as [H|[H|[H|[]]]]; injection H as <- <-; reflexivity. }
  destruct (C v) as [C1 C2]. rewrite E'. split; [exact C1|]. split; [exact C2|].
  destruct (Rle_dec (-1/100) v) as [A|A]; [destruct (Rle_dec v (1/100)) as [B|B]|].
  - rewrite C1 by lra. apply Rabs_le. lra.
  - rewrite C2 by lra. rewrite Rminus_diag_eq by reflexivity. rewrite Rabs_R0. lra.
  - rewrite C2 by lra. rewrite Rminus_diag_eq by reflexivity. rewrite Rabs_R0. lra.
Qed.
Theorem C146_radius : forall r, validateSensorOffsets r = true <-> (144 <= r <= 1280)%Z.
Proof. intros r. unfold validateSensorOffsets. rewrite andb_true_iff, !Z.leb_le. reflexivity. Qed.
Example C146_nonvacuous : exists (buf : list (F NumR)) (events : list (F NumR * F NumR * F NumR)), (0 < length events)%nat /\ (3 * length events <= length buf)%nat.
Proof. exists (repeat 0 1500), (repeat (1, 2, 3) 500). rewrite !repeat_length. split; lia. Qed.
Print Assumptions C146_buffer. Print Assumptions C146_mean. Print Assumptions C146_noise. Print Assumptions C146_radius.
