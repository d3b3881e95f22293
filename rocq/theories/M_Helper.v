(** Model of [MathHelper] (lib/helper/src/helper.cpp). *)
From Verif Require Import Base Num.

Section Helper.
Context (N : Num).
Notation F := (F N).

(** lib/helper/src/helper.cpp:26-29 [MathHelper::f_mod] *)
Definition f_mod (a n : F) : F := fsub N a (fmul N n (ffloor N (fdiv N a n))).

(** The fields of struct tm that the code uses; month is 1..12 and year is the full year
    (set so by GNSS::fromRMC, gnss.cpp:61-63). *)
Record tm := Tm { tm_sec : Z; tm_min : Z; tm_hour : Z; tm_mday : Z; tm_mon : Z; tm_year : Z }.

(** lib/helper/src/helper.cpp:5-16 [MathHelper::julianDay].  Float ('f') literals and variables are
    rounded with [f32]; double subexpressions (30.6001, 1524.5) are not; floor() of a float argument
    is the float overload (exact).  int -> float conversions round ([f32 (fZ ..)]).
    2u - A: unsigned 2 converted to float. *)
Definition julianDay (t : tm) : F :=
  let '(year, mon) :=
    if tm_mon t <=? 2 then (tm_year t - 1, tm_mon t + 12) else (tm_year t, tm_mon t) in
  let A := ffloor N (f32 N (fdiv N (f32 N (fZ N year)) (fZ N 100))) in
  let B := f32 N (fadd N (f32 N (fsub N (fZ N 2) A)) (ffloor N (f32 N (fdiv N A (fZ N 4))))) in
  let y := ffloor N (f32 N (fmul N (f32 N (fq N 1461 4)) (f32 N (fZ N (year + 4716))))) in
  let m := ffloor N (fmul N (fq N 306001 10000) (fZ N (mon + 1))) in
  (* float + double -> double; then + int, + float, - 1524.5; return converts to float *)
  f32 N (fsub N (fadd N (fadd N (fadd N y m) (fZ N (tm_mday t))) B) (fq N 3049 2)).

(** lib/helper/src/helper.cpp:19-24 [MathHelper::getLocalSiderealTimeDegrees].
    long double is taken to be double (true on the ESP32). *)
Definition deltaJulian (t : tm) : F :=
  fadd N (fadd N (fadd N (fsub N (julianDay t) (fZ N 2451545))
                         (fdiv N (fZ N (tm_hour t)) (fZ N 24)))
                 (fdiv N (fdiv N (fZ N (tm_min t)) (fZ N 60)) (fZ N 24)))
         (fdiv N (fdiv N (fZ N (tm_sec t)) (fZ N 3600)) (fZ N 24)).

Definition getLocalSiderealTimeDegrees (t : tm) (longitude : F) : F :=
  let d := deltaJulian t in
  let c := fdiv N d (fZ N 36525) in
  f_mod (fadd N (fadd N (fadd N (fq N 28046061837 100000000) (fmul N (fq N 36098564736629 100000000000) d))
                        (fmul N (fmul N (fq N 388 1000000) c) c))
                longitude)
        (fZ N 360).
End Helper.
