(** Model of class Telescope (lib/telescope/src/telescope.cpp, telescope.h) without the
    serialisation functions (those are in M_Stellarium.v), over any arithmetic and any sin/cos/atan2. *)
From Verif Require Import Base Num M_Linalg M_Helper M_Alignment.
From Coq Require Import Reals.
Open Scope Z_scope.

(** libm functions and the constant PI used by telescope.cpp *)
Record Trig (N : Num) := MkTrig {
  tsin : F N -> F N; tcos : F N -> F N; tatan2 : F N -> F N -> F N; tpi : F N }.
Arguments tsin {N}. Arguments tcos {N}. Arguments tatan2 {N}. Arguments tpi {N}.

(** the mathematical atan2(y, x): the angle of (x, y) in (-pi, pi], 0 at the origin *)
Definition atan2R (y x : R) : R :=
  (if Rlt_dec 0 x then atan (y / x)
   else if Rlt_dec x 0 then (if Rle_dec 0 y then atan (y / x) + PI else atan (y / x) - PI)
   else if Rlt_dec 0 y then PI / 2 else if Rlt_dec y 0 then - (PI / 2) else 0)%R.
Definition TrigR : Trig NumR := MkTrig NumR (sin : F NumR -> F NumR) cos atan2R PI.

Section Telescope.
Context (N : Num) (T : Trig N).
Notation F := (F N).
Notation "a +. b" := (fadd N a b) (at level 50, left associativity).
Notation "a -. b" := (fsub N a b) (at level 50, left associativity).
Notation "a *. b" := (fmul N a b) (at level 40, left associativity).
Notation "a /. b" := (fdiv N a b) (at level 40, left associativity).

(** telescope.cpp:50-53 [rad], 55-58 [deg], 60-63 [degToHours] *)
Definition rad (degrees : F) : F := degrees *. tpi T /. fZ N 180.
Definition deg (radians : F) : F := radians *. fZ N 180 /. tpi T.
Definition degToHours (degrees : F) : F := f_mod N (degrees /. fZ N 360 *. fZ N 24) (fZ N 24).

(** struct Horizontal (lib/types/src/mytypes.h), the two doubles az, alt; struct Equatorial: ra, dec *)
Record horizontal := Hor { az : F; alt : F }.
Record equatorial := Equ { ra : F; dec : F }.

(** telescope.cpp:84-88 and 138-142: the same three expressions *)
Definition rot_x (sh ch sd cd sp cp : F) : F := fneg N ch *. cd *. sp +. sd *. cp.
Definition rot_y (sh ch sd cd sp cp : F) : F := fneg N sh *. cd.
Definition rot_z (sh ch sd cd sp cp : F) : F := ch *. cd *. cp +. sd *. sp.

(** telescope.cpp:73-94 [horizontalToEquatorial]; the overloads at 96-114 forward to it *)
Definition horizontalToEquatorial (azimuth altitude latitude lst : F) : equatorial :=
  let az := rad azimuth in let el := rad altitude in let phi := rad latitude in
  let sa := tsin T az in let ca := tcos T az in
  let se := tsin T el in let ce := tcos T el in
  let sp := tsin T phi in let cp := tcos T phi in
  let x := rot_x sa ca se ce sp cp in
  let y := rot_y sa ca se ce sp cp in
  let z := rot_z sa ca se ce sp cp in
  let r := fsqrt N (x *. x +. y *. y) in
  let ha := if feq N r (fZ N 0) then fZ N 0 else tatan2 T y x in
  Equ (f_mod N (lst -. deg ha) (fZ N 360)) (deg (tatan2 T z r)).

(** telescope.cpp:125-151 [equatorialToHorizontal]; the overloads at 153-171 forward to it *)
Definition equatorialToHorizontal (ra dec latitude lst : F) : horizontal :=
  let hourAngle := lst -. ra in
  let ha := if fle N (fZ N 0) hourAngle then rad hourAngle else rad (hourAngle +. fZ N 360) in
  let dec := rad dec in let phi := rad latitude in
  let sh := tsin T ha in let ch := tcos T ha in
  let sd := tsin T dec in let cd := tcos T dec in
  let sp := tsin T phi in let cp := tcos T phi in
  let x := rot_x sh ch sd cd sp cp in
  let y := rot_y sh ch sd cd sp cp in
  let z := rot_z sh ch sd cd sp cp in
  let r := fsqrt N (x *. x +. y *. y) in
  let a := if feq N r (fZ N 0) then fZ N 0 else tatan2 T y x in
  let az := if flt N a (fZ N 0) then a +. fZ N 2 *. tpi T else a in
  let el := tatan2 T z r in
  Hor (deg az) (deg el).

(** telescope.h:25-35: the object.  Horizontal is convertible to Point with x = az, y = alt. *)
Record telescope := Tele { t_align : align N; t_orient : point N; t_cal : bool }.
(** telescope.cpp:3-15, constructors *)
Definition tele_init (az alt : F) : telescope := Tele (align_init N) (Pt az alt) false.
(** telescope.cpp:17-27 *)
Definition setOrientation (t : telescope) (az alt : F) : telescope := Tele (t_align t) (Pt az alt) (t_cal t).

Context (qsort : list (vpair N) -> list (vpair N)) (m9 : res F) (junk : option (F * F)).

(** telescope.cpp:29-36 [addReferencePoint] *)
Definition addReferencePoint (t : telescope) (ra dec latitude lst : F) : res telescope :=
  let h := equatorialToHorizontal ra dec latitude lst in
  do '(_, a) <- addVertexPair N qsort (t_align t) (t_orient t) (Pt (az h) (alt h));
  do a <- TriangulateActual N m9 junk a;
  Ok (Tele a (t_orient t) (t_cal t)).

(** telescope.cpp:38-48 [getCalibratedOrientation] (with the reported type) *)
Definition calibratedEquatorial (t : telescope) (latitude lst : F) : res (equatorial * ttype) :=
  do ty <- getTransformationType N (t_align t) (t_orient t);
  do h <- getCalibratedOrientation N (t_align t) (t_orient t);
  Ok (horizontalToEquatorial (px h) (py h) latitude lst, ty).
End Telescope.
Arguments Hor {N}. Arguments az {N}. Arguments alt {N}. Arguments Equ {N}. Arguments ra {N}. Arguments dec {N}.
Arguments Tele {N}. Arguments t_align {N}. Arguments t_orient {N}. Arguments t_cal {N}.
