(** Model of the accelerometer averaging in class LSM6Wrapper (lib/lsm6wrapper/src/lsm6wrapper.cpp). *)
From Verif Require Import Base Num.

Section Imu.
Context (N : Num).
Notation F := (F N).

(** lsm6wrapper.h: float accSamples[3 * 50]; int32_t accSampleCounter = 0.  The object is a global, so the
    array starts zeroed.  The model keeps the interleaved float array. *)
Record imu := Imu { i_samples : list F; i_counter : Z }.
Definition ACC_FILTER_SAMPLES : Z := 50.
Definition imu_init : imu := Imu (repeat (fZ N 0) 150) 0.

(** lsm6wrapper.cpp:88-95 [accSample]; the event's acceleration is three floats *)
Definition accSample (s : imu) (x y z : F) : res imu :=
  let c := i_counter s in
  do l <- wr (i_samples s) (Z.to_nat (c * 3)) x;
  do l <- wr l (Z.to_nat (c * 3 + 1)) y;
  do l <- wr l (Z.to_nat (c * 3 + 2)) z;
  Ok (Imu l (Z.rem (c + 1) ACC_FILTER_SAMPLES)).

(** lsm6wrapper.cpp:109-125 [meanVec3], the loop for one component k: sum += samples[3 * i + k] *)
Fixpoint sum_from (l : list F) (k : Z) (i : Z) (n : nat) (sum : F) : res F :=
  match n with
  | O => Ok sum
  | S n => do v <- rd l (Z.to_nat (3 * i + k)); sum_from l k (i + 1) n (f32 N (fadd N sum v))
  end.
Definition mean_component (l : list F) (num k : Z) : res F :=
  do s <- sum_from l k 0 (Z.to_nat num) (fZ N 0); Ok (f32 N (fdiv N s (f32 N (fZ N num)))).
(** lsm6wrapper.cpp:98-106 [getMeanAcc] *)
Definition getMeanAcc (s : imu) : res (F * F * F) :=
  do x <- mean_component (i_samples s) ACC_FILTER_SAMPLES 0;
  do y <- mean_component (i_samples s) ACC_FILTER_SAMPLES 1;
  do z <- mean_component (i_samples s) ACC_FILTER_SAMPLES 2;
  Ok (x, y, z).

(** lsm6wrapper.cpp:31-42, 58-67 [setCalibration], [calibrate] for the accelerometer: float offsets 0, 0.19, -0.18 *)
Definition calibrate_acc (a : F * F * F) : F * F * F :=
  let '(x, y, z) := a in
  (f32 N (fsub N x (f32 N (fq N 0 1))), f32 N (fsub N y (f32 N (fq N 19 100))), f32 N (fsub N z (f32 N (fq N (-18) 100)))).
End Imu.
Arguments Imu {N}. Arguments i_samples {N}. Arguments i_counter {N}.
