(** Specification: the Gregorian calendar, Julian days, sidereal time. *)
From Verif Require Import Base Num.
From Coq Require Import Reals.
Open Scope Z_scope.

Definition leap (y : Z) : bool := (y mod 4 =? 0) && (negb (y mod 100 =? 0) || (y mod 400 =? 0)).
Definition month_length (y m : Z) : Z :=
  if m =? 2 then (if leap y then 29 else 28)
  else if (m =? 4) || (m =? 6) || (m =? 9) || (m =? 11) then 30 else 31.
Record date := Date { d_year : Z; d_month : Z; d_day : Z }.
Definition valid_date (d : date) : Prop :=
  1 <= d_month d <= 12 /\ 1 <= d_day d <= month_length (d_year d) (d_month d).
Definition next_day (d : date) : date :=
  if d_day d <? month_length (d_year d) (d_month d) then Date (d_year d) (d_month d) (d_day d + 1)
  else if d_month d <? 12 then Date (d_year d) (d_month d + 1) 1
  else Date (d_year d + 1) 1 1.

(** [day_number d n]: [d] is [n] days after 2000-01-01 (before it if [n] is negative), by counting *)
Inductive day_number : date -> Z -> Prop :=
| dn_epoch : day_number (Date 2000 1 1) 0
| dn_next d n : day_number d n -> day_number (next_day d) (n + 1)
| dn_prev d n : valid_date d -> day_number (next_day d) n -> day_number d (n - 1).

(** days since J2000 (2000-01-01 12h), with [days] whole days since 2000-01-01 0h *)
Definition days_since_J2000 (days h m s : Z) : R :=
  (IZR days - 1 / 2 + (IZR h + (IZR m + IZR s / 60) / 60) / 24)%R.
(** Meeus (12.4) without the T^3 term; degrees, not reduced *)
Definition sidereal_formula (D longitude : R) : R :=
  (28046061837 / 100000000 + 36098564736629 / 100000000000 * D + 388 / 1000000 * (D / 36525) * (D / 36525) + longitude)%R.
