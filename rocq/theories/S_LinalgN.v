(** Specification vocabulary for matrices of any size (no reference to the model). *)
From Coq Require Import Reals.
Open Scope R_scope.

(** f 0 + f 1 + ... + f (n-1) *)
Fixpoint sumR (n : nat) (f : nat -> R) : R := match n with O => 0 | S k => sumR k f + f k end.
Fixpoint prodR (n : nat) (f : nat -> R) : R := match n with O => 1 | S k => prodR k f * f k end.
(** an n x n matrix is a function of row and column, used for indices below n only *)
Definition matrix := nat -> nat -> R.
(** entry (r,c) of the n x n matrix stored row by row in [m] *)
Definition stored (n : nat) (m : nat -> R) : matrix := fun r c => m (r * n + c)%nat.
Definition same_matrix (n : nat) (a b : matrix) : Prop :=
  forall i j, (i < n)%nat -> (j < n)%nat -> a i j = b i j.
Definition product (n : nat) (a b : matrix) : matrix := fun i j => sumR n (fun k => a i k * b k j).
Definition unit_matrix : matrix := fun i j => if Nat.eqb i j then 1 else 0.
(** regular: only the zero vector is mapped to zero *)
Definition regular (n : nat) (a : matrix) : Prop :=
  forall x : nat -> R, (forall i, (i < n)%nat -> sumR n (fun k => a i k * x k) = 0) ->
  forall k, (k < n)%nat -> x k = 0.
Definition inverse_of (n : nat) (a b : matrix) : Prop :=
  same_matrix n (product n a b) unit_matrix /\ same_matrix n (product n b a) unit_matrix.
Definition invertible (n : nat) (a : matrix) : Prop := exists b, inverse_of n a b.
(** idx is a permutation of 0..n-1 *)
Definition permutation (n : nat) (idx : nat -> nat) : Prop :=
  (forall i, (i < n)%nat -> (idx i < n)%nat) /\
  (forall i j, (i < n)%nat -> (j < n)%nat -> idx i = idx j -> i = j).

(** The determinant, characterised: linear in each row, zero with two equal rows, one for the unit
    matrix, and dependent on the entries only. *)
Definition with_row (a : matrix) (r : nat) (v : nat -> R) : matrix :=
  fun i j => if Nat.eqb i r then v j else a i j.
Definition is_determinant (n : nat) (D : matrix -> R) : Prop :=
  (forall a b, same_matrix n a b -> D a = D b) /\
  (forall a r v w s, (r < n)%nat ->
     D (with_row a r (fun j => s * v j + w j)) = s * D (with_row a r v) + D (with_row a r w)) /\
  (forall a r s, (r < n)%nat -> (s < n)%nat -> r <> s -> (forall j, (j < n)%nat -> a r j = a s j) -> D a = 0) /\
  D unit_matrix = 1.
