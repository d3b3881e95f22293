(** Specification: directions on the sky as unit vectors. Independent of the code. *)
From Coq Require Import Reals.
Open Scope R_scope.

(** degrees to radians *)
Definition radians (d : R) : R := d * PI / 180.
(** The unit vector of longitude-like angle [a] and latitude-like angle [e] (degrees). *)
Definition vec (a e : R) : R * R * R :=
  (cos (radians a) * cos (radians e), sin (radians a) * cos (radians e), sin (radians e)).
(** cosine of the angular separation of two directions *)
Definition cos_sep (a e a' e' : R) : R :=
  sin (radians e) * sin (radians e') + cos (radians e) * cos (radians e') * cos (radians (a - a')).
(** Horizontal direction (azimuth from north over east, altitude) of the star with hour angle [h] and
    declination [d] seen from latitude [p]: the components towards north, east and zenith. *)
Definition horizon_vec (h d p : R) : R * R * R :=
  (cos (radians p) * sin (radians d) - sin (radians p) * cos (radians d) * cos (radians h),
   - (cos (radians d) * sin (radians h)),
   sin (radians p) * sin (radians d) + cos (radians p) * cos (radians d) * cos (radians h)).
(** equal modulo whole turns *)
Definition same_turn (a b : R) : Prop := exists k : Z, a = b + 360 * IZR k.
