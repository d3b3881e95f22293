(** What a Delaunay triangulation is: a small specification in plane geometry, independent of
    CircumCircle, of the edge buffer and of every other part of the implementation. *)
From Verif Require Import Base Num M_Linalg M_Helper M_Alignment.
From Coq Require Import Reals.
Local Open Scope R_scope.

Definition xof (p : point NumR) : R := px p.
Definition yof (p : point NumR) : R := py p.

(** squared distance of p from the point (ox, oy) *)
Definition sqdist (ox oy : R) (p : point NumR) : R :=
  (xof p - ox) * (xof p - ox) + (yof p - oy) * (yof p - oy).

(** twice the signed area of the triangle p q (x,y): 0 iff the three are on one line, positive iff
    (x,y) is on the left of p -> q *)
Definition turn (p q : point NumR) (x y : R) : R :=
  (xof q - xof p) * (y - yof p) - (yof q - yof p) * (x - xof p).
Definition collinear (p q r : point NumR) : Prop := turn p q (xof r) (yof r) = 0.

(** the k-th point of a list (only used for 0 <= k < length) *)
Definition pt (pts : list (point NumR)) (k : Z) : point NumR := nth (Z.to_nat k) pts (@Pt NumR 0 0).
Definition index (pts : list (point NumR)) (k : Z) : Prop := (0 <= k < Z.of_nat (length pts))%Z.

(** General position: no three points on a line, no four points on a circle, and altitudes are equal or
    at least 0.000001 degrees apart. *)
Definition no_three_on_a_line (pts : list (point NumR)) : Prop :=
  forall a b c, index pts a -> index pts b -> index pts c -> a <> b -> b <> c -> a <> c ->
    ~ collinear (pt pts a) (pt pts b) (pt pts c).
Definition no_four_on_a_circle (pts : list (point NumR)) : Prop :=
  forall a b c d, index pts a -> index pts b -> index pts c -> index pts d ->
    a <> b -> a <> c -> a <> d -> b <> c -> b <> d -> c <> d ->
    forall ox oy, sqdist ox oy (pt pts b) = sqdist ox oy (pt pts a) -> sqdist ox oy (pt pts c) = sqdist ox oy (pt pts a) ->
                  sqdist ox oy (pt pts d) <> sqdist ox oy (pt pts a).
Definition altitudes_apart (pts : list (point NumR)) : Prop :=
  forall a b, index pts a -> index pts b ->
    yof (pt pts a) = yof (pt pts b) \/ 1 / 1000000 <= Rabs (yof (pt pts a) - yof (pt pts b)).
Definition in_general_position (pts : list (point NumR)) : Prop :=
  no_three_on_a_line pts /\ no_four_on_a_circle pts /\ altitudes_apart pts.

(** The frame: three points around the bounding box of [ps]. *)
Definition bounding_box (ps : list (point NumR)) (xmin xmax ymin ymax : R) : Prop :=
  (forall p, In p ps -> xmin <= xof p <= xmax /\ ymin <= yof p <= ymax) /\
  (exists p, In p ps /\ xof p = xmin) /\ (exists p, In p ps /\ xof p = xmax) /\
  (exists p, In p ps /\ yof p = ymin) /\ (exists p, In p ps /\ yof p = ymax).
Definition frame (ps : list (point NumR)) (s0 s1 s2 : point NumR) : Prop :=
  exists xmin xmax ymin ymax, bounding_box ps xmin xmax ymin ymax /\
    let d := Rmax (xmax - xmin) (ymax - ymin) in
    let xm := (xmax + xmin) / 2 in let ym := (ymax + ymin) / 2 in
    s0 = @Pt NumR (xm - 20 * d) (ym - d) /\ s1 = @Pt NumR xm (ym + 20 * d) /\ s2 = @Pt NumR (xm + 20 * d) (ym - d).

(** Every other point is strictly outside the circle through a, b, c. *)
Definition empty_circle (pts : list (point NumR)) (a b c : Z) : Prop :=
  forall ox oy, sqdist ox oy (pt pts b) = sqdist ox oy (pt pts a) -> sqdist ox oy (pt pts c) = sqdist ox oy (pt pts a) ->
    forall k, index pts k -> k <> a -> k <> b -> k <> c -> sqdist ox oy (pt pts a) < sqdist ox oy (pt pts k).

(** Three different members of the list. *)
Definition triangle_of (n : nat) (a b c : Z) : Prop :=
  (0 <= a < Z.of_nat n /\ 0 <= b < Z.of_nat n /\ 0 <= c < Z.of_nat n)%Z /\ a <> b /\ b <> c /\ a <> c.

(** Same three vertices. *)
Definition same_vertices (t : tri) (a b c : Z) : Prop :=
  forall k, (k = t1 t \/ k = t2 t \/ k = t3 t) <-> (k = a \/ k = b \/ k = c).

(** (x,y) strictly inside / inside or on the border of the triangle abc. *)
Definition strictly_in (pts : list (point NumR)) (a b c : Z) (x y : R) : Prop :=
  let p := pt pts a in let q := pt pts b in let r := pt pts c in
  (0 < turn p q x y /\ 0 < turn q r x y /\ 0 < turn r p x y) \/
  (turn p q x y < 0 /\ turn q r x y < 0 /\ turn r p x y < 0).
Definition covers (pts : list (point NumR)) (a b c : Z) (x y : R) : Prop :=
  let p := pt pts a in let q := pt pts b in let r := pt pts c in
  (0 <= turn p q x y /\ 0 <= turn q r x y /\ 0 <= turn r p x y) \/
  (turn p q x y <= 0 /\ turn q r x y <= 0 /\ turn r p x y <= 0).

(** The azimuths are in ascending order. *)
Definition ascending (ps : list (point NumR)) : Prop :=
  forall a b, (0 <= a <= b)%Z -> (b < Z.of_nat (length ps))%Z -> xof (pt ps a) <= xof (pt ps b).

(** The list [ts] is the Delaunay triangulation of the first [n] points of [pts] (the others only
    restrict which circles count as empty). *)
Definition delaunay (pts : list (point NumR)) (n : nat) (ts : list tri) : Prop :=
  (* every triangle has three different stored points as vertices and an empty circumcircle *)
  (forall t, In t ts -> triangle_of n (t1 t) (t2 t) (t3 t) /\ empty_circle pts (t1 t) (t2 t) (t3 t)) /\
  (* every triple of stored points with an empty circumcircle is one of the triangles *)
  (forall a b c, triangle_of n a b c -> empty_circle pts a b c -> exists t, In t ts /\ same_vertices t a b c) /\
  (* two entries of the list have no interior point in common *)
  (forall i j t t', nth_error ts i = Some t -> nth_error ts j = Some t' -> i <> j ->
     forall x y, ~ (strictly_in pts (t1 t) (t2 t) (t3 t) x y /\ strictly_in pts (t1 t') (t2 t') (t3 t') x y)).
