(** Specification: the C mathematics library on actual IEEE doubles (with signed zeros, infinities and NaN).  Independent of the code. *)
From Verif Require Import Base Num M_Telescope.
From Coq Require Import Reals Floats.SpecFloat.
From Flocq Require Import Core IEEE754.BinarySingleNaN.
Open Scope R_scope.

(** the double [s] is finite (neither an infinity nor NaN) and its value is [r] *)
Definition is_double (s : spec_float) (r : R) : Prop :=
  valid_binary 53 1024 s = true /\ is_finite_SF s = true /\ SF2R radix2 s = r.

(** sin, cos, atan2 and PI within 2^-50 as in [good_libm]; zeros as in C's Annex F: the sign of a zero argument does not change the
    value of sin and cos, nor that of atan2(y, +-0) for y <> 0, nor that of atan2(+-0, x) for x > 0 or x = +0. *)
Definition c_libm (T : Trig NumSF) : Prop :=
  (forall (s : spec_float) (x : R), is_double s x -> Rabs x <= 100 -> exists r, is_double (tsin T s) r /\ Rabs (r - sin x) <= bpow radix2 (-50)) /\
  (forall (s : spec_float) (x : R), is_double s x -> Rabs x <= 100 -> exists r, is_double (tcos T s) r /\ Rabs (r - cos x) <= bpow radix2 (-50)) /\
  (forall (a b : spec_float) (y x : R), is_double a y -> is_double b x -> exists (r : R) (k : Z), is_double (tatan2 T a b) r /\ Rabs r <= 4 /\
     Rabs (r - (atan2R y x + 2 * PI * IZR k)) <= bpow radix2 (-50)) /\
  (exists r, is_double (tpi T) r /\ Rabs (r - PI) <= bpow radix2 (-50)) /\
  (forall s1 s2 r, is_double (tsin T (S754_zero s1)) r -> is_double (tsin T (S754_zero s2)) r) /\
  (forall s1 s2 r, is_double (tcos T (S754_zero s1)) r -> is_double (tcos T (S754_zero s2)) r) /\
  (forall (a : spec_float) (y : R) s1 s2 r, is_double a y -> y <> 0 -> is_double (tatan2 T a (S754_zero s1)) r -> is_double (tatan2 T a (S754_zero s2)) r) /\
  (forall (b : spec_float) (x : R) s1 s2 r, is_double b x -> 0 < x \/ b = S754_zero false -> is_double (tatan2 T (S754_zero s1) b) r -> is_double (tatan2 T (S754_zero s2) b) r).
