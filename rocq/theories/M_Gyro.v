(** Model of the gyroscope functions of class LSM6Wrapper (lib/lsm6wrapper/src/lsm6wrapper.cpp) and of class BnoData
    (lib/bnodata/src/bnodata.cpp); public functions of the libraries that loop() does not call. *)
From Verif Require Import Base Num M_Imu.

Section Gyro.
Context (N : Num).
Notation F := (F N).

(** lsm6wrapper.cpp:80-86 [gyroSample]: samples[offset * 3 + k] = the event's three floats *)
Definition gyroSample (samples : list F) (offset : Z) (event : F * F * F) : res (list F) :=
  let '(x, y, z) := event in
  do l <- wr samples (Z.to_nat (offset * 3)) x;
  do l <- wr l (Z.to_nat (offset * 3 + 1)) y;
  wr l (Z.to_nat (offset * 3 + 2)) z.

(** lsm6wrapper.cpp:109-125 [meanVec3]; the three running sums are independent of each other *)
Definition meanVec3 (samples : list F) (num_samples : Z) : res (F * F * F) :=
  do x <- mean_component N samples num_samples 0;
  do y <- mean_component N samples num_samples 1;
  do z <- mean_component N samples num_samples 2;
  Ok (x, y, z).

(** lsm6wrapper.cpp:68-74 [clipGyroNoise]; abs is the floating-point one, the comparison is in double *)
Definition clip1 (v : F) : F := if flt N (fq N 1 100) (fabs N v) then v else fZ N 0.
Definition clipGyroNoise (event : F * F * F) : F * F * F := let '(x, y, z) := event in (clip1 x, clip1 y, clip1 z).
End Gyro.

(** bnodata.cpp:19-24 [validateSensorOffsets]; mag_radius is an int16_t *)
Definition validateSensorOffsets (mag_radius : Z) : bool := (144 <=? mag_radius) && (mag_radius <=? 1280).
