(** Specification: what is assumed of the C mathematics library, and closeness of directions.  Independent of the code. *)
From Verif Require Import Base Num M_Telescope.
From Coq Require Import Reals.
From Flocq Require Import Core.
Open Scope R_scope.

(** What is assumed of libm: sin and cos are right within 2^-50 for arguments up to 100, atan2 up to whole turns (so that
    either sign may be chosen at the cut), and PI is. *)
Definition good_libm (T : Trig NumB) : Prop :=
  (forall x : R, Rabs x <= 100 -> Rabs (tsin T x - sin x) <= bpow radix2 (-50)) /\
  (forall x : R, Rabs x <= 100 -> Rabs (tcos T x - cos x) <= bpow radix2 (-50)) /\
  (forall y x : R, Rabs (tatan2 T y x) <= 4 /\ exists k : Z, Rabs (tatan2 T y x - (atan2R y x + 2 * PI * IZR k)) <= bpow radix2 (-50)) /\
  Rabs (tpi T - PI) <= bpow radix2 (-50).

(** two directions (unit vectors), component by component *)
Definition near (e : R) (v w : R * R * R) : Prop :=
  let '(x, y, z) := v in let '(x', y', z') := w in Rabs (x - x') <= e /\ Rabs (y - y') <= e /\ Rabs (z - z') <= e.
