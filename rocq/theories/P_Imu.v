(** Proofs about the accelerometer ring buffer. *)
From Verif Require Import Base Num M_Imu P_Round.
From Coq Require Import Permutation Reals Lra.
From Flocq Require Import Core.
Open Scope Z_scope.

Section Ring.
Context (N : Num).
Notation F := (F N).
Notation triple := (F * F * F)%type.
Definition flat (l : list triple) : list F := concat (map (fun '(x, y, z) => [x; y; z]) l).
Definition comp3 (k : Z) (t : triple) : F := let '(x, y, z) := t in if k =? 0 then x else if k =? 1 then y else z.
Definition zero3 : triple := (fZ N 0, fZ N 0, fZ N 0).

Lemma flat_app a b : flat (a ++ b) = flat a ++ flat b.
Proof. unfold flat. rewrite map_app, concat_app. reflexivity. Qed.
Lemma flat_length l : length (flat l) = (3 * length l)%nat.
Proof. induction l as [|[[x y] z] l IH]; [reflexivity|]. change (flat ((x, y, z) :: l)) with (x :: y :: z :: flat l). cbn [length]. rewrite IH. lia. Qed.

Lemma upd_app {A} (a : list A) x b v i : i = length a -> upd (a ++ x :: b) i v = Some (a ++ v :: b).
Proof. intros ->. induction a as [|h a IH]; [reflexivity|]. cbn [app length upd]. rewrite IH. reflexivity. Qed.

(** ring state: A holds the newest |A| samples (written since the last wrap), B the older ones *)
Definition ring (s : imu N) (last50 : list triple) : Prop :=
  exists A B, i_samples s = flat (A ++ B) /\ last50 = B ++ A /\ i_counter s = Z.of_nat (length A) /\ (length A < 50)%nat /\ length (A ++ B) = 50%nat.

Lemma ring_init : ring (imu_init N) (repeat zero3 50).
Proof. exists [], (repeat zero3 50). split; [reflexivity|]. rewrite app_nil_r. split; [reflexivity|]. split; [reflexivity|]. split; [cbn; lia|reflexivity]. Qed.

Lemma ring_step s x y z h d : ring s (h :: d) -> exists s', accSample N s x y z = Ok s' /\ ring s' (d ++ [(x, y, z)]).
Proof.
  intros (A & B & E1 & E2 & E3 & E4 & E5).
  destruct B as [|b B]. { rewrite app_nil_r in E5. lia. }
  cbn [app] in E2. injection E2 as <- ->. destruct h as [[hx hy] hz].
  unfold accSample. rewrite E1, E3.
  assert (EF : flat (A ++ (hx, hy, hz) :: B) = flat A ++ hx :: hy :: hz :: flat B) by (rewrite flat_app; reflexivity).
  rewrite EF. unfold wr. rewrite (upd_app (flat A)) by (rewrite flat_length; lia). cbn [bind].
  change (flat A ++ x :: hy :: hz :: flat B) with (flat A ++ [x] ++ hy :: hz :: flat B). rewrite app_assoc.
  rewrite (upd_app (flat A ++ [x])) by (rewrite app_length, flat_length; cbn [length]; lia). cbn [bind].
  rewrite <- app_assoc. change (flat A ++ [x] ++ y :: hz :: flat B) with (flat A ++ [x; y] ++ hz :: flat B). rewrite app_assoc.
  rewrite (upd_app (flat A ++ [x; y])) by (rewrite app_length, flat_length; cbn [length]; lia). cbn [bind].
  eexists. split; [reflexivity|]. rewrite <- app_assoc.
  change (flat A ++ [x; y] ++ z :: flat B) with (flat A ++ flat [(x, y, z)] ++ flat B). rewrite <- !flat_app.
  rewrite app_length in E5. cbn [length] in E5. unfold ACC_FILTER_SAMPLES.
  destruct (Nat.eq_dec (length A) 49) as [E|E].
  - destruct B as [|? ?]; [|cbn [length] in E5; lia]. exists [], (A ++ [(x, y, z)]). cbn [app].
    repeat split; cbn [i_samples i_counter app length]; rewrite ?app_nil_r, ?app_length; cbn [length]; try lia; auto.
    rewrite E. reflexivity.
  - exists (A ++ [(x, y, z)]), B. rewrite !app_length. cbn [length]. cbn [i_samples i_counter].
    split; [rewrite <- app_assoc; reflexivity|]. split; [rewrite <- app_assoc; reflexivity|].
    split; [|lia]. rewrite Z.rem_small by lia. lia.
Qed.

(** samples taken in a row *)
Fixpoint feed (s : imu N) (h : list triple) : res (imu N) :=
  match h with [] => Ok s | (x, y, z) :: h => do s <- accSample N s x y z; feed s h end.
(** the last 50 of a list *)
Definition last50 (l : list triple) : list triple := skipn (length l - 50) l.

Lemma last50_step l x : (50 <= length l)%nat -> exists h d, last50 l = h :: d /\ last50 (l ++ [x]) = d ++ [x].
Proof.
  intros H. unfold last50. rewrite app_length. cbn [length].
  replace (length l + 1 - 50)%nat with (S (length l - 50))%nat by lia. rewrite skipn_app.
  replace (S (length l - 50) - length l)%nat with 0%nat by lia. cbn [skipn].
  set (k := (length l - 50)%nat). assert (Hk : (k < length l)%nat) by (unfold k; lia). clearbody k. clear H.
  revert l Hk. induction k as [|k IH]; intros [|a l] Hk; cbn [length] in Hk; try lia.
  - exists a, l. split; reflexivity.
  - destruct (IH l) as (h & d & E1 & E2); [lia|]. exists h, d. split; [exact E1|exact E2].
Qed.
Lemma feed_ring h : forall s l, (50 <= length l)%nat -> ring s (last50 l) -> exists s', feed s h = Ok s' /\ ring s' (last50 (l ++ h)).
Proof.
  induction h as [|[[x y] z] h IH]; intros s l Hl Hr.
  - exists s. rewrite app_nil_r. split; [reflexivity|exact Hr].
  - destruct (last50_step l (x, y, z) Hl) as (a & d & E1 & E2). rewrite E1 in Hr.
    destruct (ring_step s x y z a d Hr) as (s1 & F1 & R1). cbn [feed]. rewrite F1. cbn [bind]. rewrite <- E2 in R1.
    destruct (IH s1 (l ++ [(x, y, z)])) as (s' & F2 & R2); [rewrite app_length; lia|exact R1|].
    exists s'. split; [exact F2|]. rewrite <- app_assoc in R2. exact R2.
Qed.

Lemma flat_nth T k i t : 0 <= k < 3 -> nth_error T i = Some t -> rd (flat T) (Z.to_nat (3 * Z.of_nat i + k)) = Ok (comp3 k t).
Proof.
  intros Hk. revert T. induction i as [|i IH]; intros [|[[x y] z] T] E; try discriminate.
  - injection E as <-. assert (C : k = 0 \/ k = 1 \/ k = 2) by lia. destruct C as [-> | [-> | ->]]; reflexivity.
  - cbn [nth_error] in E. specialize (IH T E). change (flat ((x, y, z) :: T)) with (x :: y :: z :: flat T).
    replace (Z.to_nat (3 * Z.of_nat (S i) + k)) with (S (S (S (Z.to_nat (3 * Z.of_nat i + k)))))%nat by lia. exact IH.
Qed.
Lemma sum_from_spec k : 0 <= k < 3 -> forall T P n acc, length T = n ->
  sum_from N (flat (P ++ T)) k (Z.of_nat (length P)) n acc = Ok (fold_left (fun s t => f32 N (fadd N s (comp3 k t))) T acc).
Proof.
  intros Hk. induction T as [|t T IH]; intros P n acc Hn; cbn [length] in Hn; subst n; [reflexivity|].
  cbn [sum_from fold_left]. rewrite (flat_nth (P ++ t :: T) k (length P) t Hk) by (rewrite nth_error_app2, Nat.sub_diag by lia; reflexivity).
  cbn [bind]. replace (Z.of_nat (length P) + 1) with (Z.of_nat (length (P ++ [t]))) by (rewrite app_length; cbn [length]; lia).
  replace (P ++ t :: T) with ((P ++ [t]) ++ T) by (rewrite <- app_assoc; reflexivity). apply IH. reflexivity.
Qed.
(** float mean of a list of samples, in the order given *)
Definition float_mean (k : Z) (T : list triple) : F :=
  f32 N (fdiv N (fold_left (fun s t => f32 N (fadd N s (comp3 k t))) T (fZ N 0)) (f32 N (fZ N 50))).
Lemma mean_spec s L : ring s L -> exists A B, L = B ++ A /\
  getMeanAcc N s = Ok (float_mean 0 (A ++ B), float_mean 1 (A ++ B), float_mean 2 (A ++ B)).
Proof.
  intros (A & B & E1 & E2 & E3 & E4 & E5). exists A, B. split; [exact E2|].
  unfold getMeanAcc, mean_component, ACC_FILTER_SAMPLES. rewrite E1. change (Z.to_nat 50) with 50%nat.
  assert (E : forall k, 0 <= k < 3 -> sum_from N (flat (A ++ B)) k 0 50 (fZ N 0) = Ok (fold_left (fun s t => f32 N (fadd N s (comp3 k t))) (A ++ B) (fZ N 0))).
  { intros k Hk. exact (sum_from_spec k Hk (A ++ B) [] 50%nat (fZ N 0) E5). }
  rewrite !E by lia. reflexivity.
Qed.
End Ring.

(** exact arithmetic *)
Definition sumR (l : list R) : R := fold_right Rplus 0%R l.
Lemma fold_sum (l : list (R * R * R)) k acc : fold_left (fun s t => (s + comp3 NumR k t)%R) l acc = (acc + sumR (map (comp3 NumR k) l))%R.
Proof.
  revert acc; induction l as [|t l IH]; intros acc; cbn [fold_left map sumR fold_right]; [ring|]. rewrite IH. unfold sumR. ring.
Qed.
Lemma sumR_perm l l' : Permutation l l' -> sumR l = sumR l'.
Proof. induction 1; cbn [sumR fold_right]; unfold sumR in *; cbn [fold_right]; try lra. Qed.

Open Scope R_scope.
(** binary32 sum *)
Lemma float_sum_error (l : list R) : (length l <= 50)%nat -> Forall (fun v => Rabs v <= 20) l ->
  Rabs (fold_left (fun s v => b32 (b64 (s + v))) l 0 - sumR l) <= INR (length l) * bpow radix2 (-14) /\
  Rabs (sumR l) <= INR (length l) * 20.
Proof.
  induction l as [|v l IH] using rev_ind; intros Hl Hv.
  - cbn [fold_left sumR fold_right length INR]. rewrite Rminus_0_r, Rabs_R0. lra.
  - rewrite app_length in Hl. cbn [length] in Hl. apply Forall_app in Hv. destruct Hv as [Hv1 Hv2]. inversion Hv2 as [|? ? Hv _]; subst.
    destruct IH as [I1 I2]; [lia|exact Hv1|].
    rewrite fold_left_app. cbn [fold_left].
    assert (ES : sumR (l ++ [v]) = sumR l + v).
    { clear. induction l as [|a l IH]; cbn [app sumR fold_right]; unfold sumR in *; cbn [fold_right]; [ring|]. rewrite IH. ring. }
    rewrite ES, app_length. cbn [length]. rewrite plus_INR. cbn [INR].
    set (s := fold_left _ l 0) in *. clearbody s.
    assert (Hn : INR (length l) <= 49). { replace 49 with (INR 49) by (rewrite INR_IZR_INZ; reflexivity). apply le_INR. lia. }
    assert (Hn0 : 0 <= INR (length l)) by apply pos_INR.
    set (n := INR (length l)) in *. clearbody n. set (t := sumR l) in *. clearbody t.
    change (bpow radix2 (-14)) with (/ 16384) in *.
    apply Rabs_le_inv in I1. apply Rabs_le_inv in I2. apply Rabs_le_inv in Hv.
    assert (B1 : Rabs (b64 (s + v) - (s + v)) <= bpow radix2 (10 - 53)).
    { apply b64_error; [lia|]. change (bpow radix2 10) with 1024. apply Rabs_le. lra. }
    change (bpow radix2 (10 - 53)) with (/ 8796093022208) in B1. apply Rabs_le_inv in B1.
    assert (B2 : Rabs (b32 (b64 (s + v)) - b64 (s + v)) <= bpow radix2 (10 - 25)).
    { apply b32_error_lt; [lia|]. change (bpow radix2 10) with 1024. apply Rabs_lt. lra. }
    change (bpow radix2 (10 - 25)) with (/ 32768) in B2. apply Rabs_le_inv in B2.
    split; apply Rabs_le; lra.
Qed.
