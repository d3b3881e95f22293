(** Small specification of the alignment store, independent of how it is implemented. *)
From Verif Require Import Base Num M_Linalg M_Helper M_Alignment.
From Coq Require Import Permutation Sorted.

Section Spec.
Context (N : Num).

(** What the user does with an Alignment object. *)
Inductive op :=
| Add (act refp : point N)     (* addVertexPair *)
| Clear                        (* clearAll *)
| Triangulate.                 (* TriangulateActual *)

(** Same orientation: == on both coordinates. *)
Definition same (p q : point N) : bool := feq N (px p) (px q) && feq N (py p) (py q).

(** The orientations that should be stored after a history. *)
Fixpoint spec_points (ops : list op) (l : list (point N)) : list (point N) :=
  match ops with
  | [] => l
  | Add p _ :: ops => spec_points ops (if existsb (fun q => same q p) l then l else l ++ [p])
  | Clear :: ops => spec_points ops []
  | Triangulate :: ops => spec_points ops l
  end.

(** No prefix of the history asks for more than [n] points. *)
Definition never_more_than (n : nat) (ops : list op) : Prop :=
  forall k, (length (spec_points (firstn k ops) []) <= n)%nat.

(** The points the object holds: the first numVertices entries of its array. *)
Definition stored (a : align N) : list (vpair N) := firstn (Z.to_nat (numVertices a)) (verts a).

(** C library qsort: a permutation for every input. *)
Definition permuting (qsort : list (vpair N) -> list (vpair N)) : Prop :=
  forall l, Permutation (qsort l) l.
(** ... which is sorted by azimuth (no later element has a smaller one) whenever [<] is a strict
    weak order, as the C standard requires of comparison functions. *)
Definition by_azimuth (v w : vpair N) : Prop := flt N (px (actual w)) (px (actual v)) = false.
Definition weak_order : Prop :=
  (forall x, flt N x x = false) /\
  (forall x y z, flt N x y = true -> flt N y z = true -> flt N x z = true) /\
  (forall x y z, flt N x y = false -> flt N y z = false -> flt N x z = false).
Definition sorting (qsort : list (vpair N) -> list (vpair N)) : Prop :=
  permuting qsort /\ (weak_order -> forall l, StronglySorted by_azimuth (qsort l)).

Section Run.
Context (qsort : list (vpair N) -> list (vpair N)) (m9 : res (F N)) (junk : option (F N * F N)).
Definition step (a : align N) (o : op) : res (align N) :=
  match o with
  | Add p r => do '(_, a') <- addVertexPair N qsort a p r; Ok a'
  | Clear => Ok (clearAll N a)
  | Triangulate => TriangulateActual N m9 junk a
  end.
Fixpoint run (a : align N) (ops : list op) : res (align N) :=
  match ops with
  | [] => Ok a
  | o :: ops => do a' <- step a o; run a' ops
  end.
End Run.

(** A triangle list entry refers to three different points out of [n]. *)
Definition three_of (n : Z) (t : tri) : Prop :=
  0 <= t1 t < n /\ 0 <= t2 t < n /\ 0 <= t3 t < n /\ t1 t <> t2 t /\ t2 t <> t3 t /\ t3 t <> t1 t.
End Spec.
Arguments Add {N}. Arguments Clear {N}. Arguments Triangulate {N}.
Arguments stored {N}.
