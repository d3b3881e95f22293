(** Model of the matrix templates of lib/linalg/src for every dimension (the alignment code uses
    dim = 3, see M_Linalg.v; P_LinalgN.v relates the two). *)
From Verif Require Import Base Num.

Section LinalgN.
Context (N : Num) (dim : nat).
Notation F := (F N).

(** lib/linalg/src/ElementStorage.h:5-13, [Array<dim,dim,double>]: the memory is m[0], m[1], ...;
    element (r,c) is m[r*dim+c].  Nothing checks c < dim, so (r,dim) is the first element of the
    next row and (dim-1,dim) is whatever is stored behind the array.  Memory is a total function
    here: an access behind the array yields an arbitrary value (the ISO reading, undefined
    behaviour, is modelled in M_Linalg.v, see C62). *)
Definition mem := nat -> F.
Definition at2 (m : mem) (r c : nat) : F := m (r * dim + c)%nat.
Definition put (m : mem) (k : nat) (v : F) : mem := fun i => if Nat.eqb i k then v else m i.
Definition put2 (m : mem) (r c : nat) (v : F) : mem := put m (r * dim + c) v.
(** int idx[dim], an [ArrayMatrix<dim,1>] or a C array: one dimension. *)
Definition iput (p : nat -> nat) (k v : nat) : nat -> nat := fun i => if Nat.eqb i k then v else p i.

(** C's fmax: the non-NaN argument if one is NaN. *)
Definition fmaxN (x y : F) : F := if flt N x y then y else if feq N x x then x else y.

(** NotSoBasicLinearAlgebra.h:53-59: largest |A(i,j)| over j = 0..dim (sic). *)
Definition row_largestN (m : mem) (i : nat) : F :=
  fold_left (fun largest j => fmaxN (fabs N (at2 m i j)) largest) (seq 0 (S dim)) (fZ N 0).

(** NotSoBasicLinearAlgebra.h:48-69: the row scales, or None = a row without nonzero element. *)
Fixpoint row_scalesN (m : mem) (rows : list nat) (rs : mem) : option mem :=
  match rows with
  | [] => Some rs
  | i :: rows =>
      let largest := row_largestN m i in
      if feq N largest (fZ N 0) then None
      else row_scalesN m rows (put rs i (fdiv N (fZ N 1) largest))
  end.

(** The loop "sum = 0; for k in ks: sum += A(i,k) * A(k,j)" followed by A(i,j) -= sum. *)
Definition crout_elemN (m : mem) (i j bound : nat) : mem :=
  let sum := fold_left (fun s k => fadd N s (fmul N (at2 m i k) (at2 m k j))) (seq 0 bound) (fZ N 0) in
  put2 m i j (fsub N (at2 m i j) sum).

(** NotSoBasicLinearAlgebra.h:74-98: column [j] of Crout's method. *)
Definition crout_columnN (m : mem) (j : nat) : mem :=
  let m := fold_left (fun m i => crout_elemN m i j i) (seq 0 j) m in
  fold_left (fun m i => crout_elemN m i j j) (seq j (dim - j)) m.

(** NotSoBasicLinearAlgebra.h:100-113: pivot search, the last among equals wins. *)
Definition find_pivotN (m rs : mem) (j : nat) : nat :=
  snd (fold_left (fun '(largest, argmax) i =>
          let this_elem := fmul N (rs i) (fabs N (at2 m i j)) in
          if fle N largest this_elem then (this_elem, i) else (largest, argmax))
        (seq j (dim - j)) (fZ N 0, j)).

(** NotSoBasicLinearAlgebra.h:117-120 with bla_swap (:5-11). *)
Definition swap_rowsN (m : mem) (r s : nat) : mem :=
  fold_left (fun m k => let tmp := at2 m r k in put2 (put2 m r k (at2 m s k)) s k tmp) (seq 0 dim) m.

(** State of the column loop: the matrix, decomp.parity, decomp.permutation.idx, row_scale. *)
Record lu_state := LU { lu_m : mem; lu_parity : F; lu_idx : nat -> nat; lu_scale : mem }.

(** NotSoBasicLinearAlgebra.h:115-126: the row exchange. *)
Definition lu_swap (s : lu_state) (j argmax : nat) : lu_state :=
  if Nat.eqb j argmax then s
  else LU (swap_rowsN (lu_m s) argmax j) (fneg N (lu_parity s))
          (iput (iput (lu_idx s) j (lu_idx s argmax)) argmax (lu_idx s j))
          (put (lu_scale s) argmax (lu_scale s j)).

(** NotSoBasicLinearAlgebra.h:128-142: a zero pivot is replaced, the column is divided by the pivot.
    ("if (j != dim)" is always true in this loop.) *)
Definition lu_divide (m : mem) (j : nat) : mem :=
  let m := if feq N (at2 m j j) (fZ N 0) then put2 m j j (fq N 1 100000000000000000000) else m in
  let pivot_inv := fdiv N (fZ N 1) (at2 m j j) in
  fold_left (fun m i => put2 m i j (fmul N (at2 m i j) pivot_inv)) (seq (j + 1) (dim - (j + 1))) m.

(** NotSoBasicLinearAlgebra.h:71-143: one pass of the column loop. *)
Definition lu_stepN (s : lu_state) (j : nat) : lu_state :=
  let m := crout_columnN (lu_m s) j in
  let argmax := find_pivotN m (lu_scale s) j in
  let s := lu_swap (LU m (lu_parity s) (lu_idx s) (lu_scale s)) j argmax in
  LU (lu_divide (lu_m s) j) (lu_parity s) (lu_idx s) (lu_scale s).

(** NotSoBasicLinearAlgebra.h:35-147 [LUDecompose]: the flag decomp.singular and what is left in
    the matrix, parity and idx.  row_scale is not initialised in the code; every entry is written
    before it is read, so [junk] does not matter. *)
Definition LUDecomposeN (m junk : mem) : bool * lu_state :=
  match row_scalesN m (seq 0 dim) junk with
  | None => (true, LU m (fZ N 1) (fun i => i) junk)
  | Some rs => (false, fold_left lu_stepN (seq 0 dim) (LU m (fZ N 1) (fun i => i) rs))
  end.

(** NotSoBasicLinearAlgebra.h:149-191 [LUSolve]; [tmp] is uninitialised in the code. *)
Definition fwd_step (lu : mem) (idx : nat -> nat) (b tmp : mem) (i : nat) : mem :=
  let sum := fold_left (fun s j => fadd N s (fmul N (at2 lu i j) (tmp (idx j)))) (seq 0 i) (fZ N 0) in
  put tmp (idx i) (fsub N (b (idx i)) sum).
Definition bwd_step (lu : mem) (idx : nat -> nat) (tmp : mem) (i : nat) : mem :=
  let sum := fold_left (fun s j => fadd N s (fmul N (at2 lu i j) (tmp (idx j)))) (seq (i + 1) (dim - (i + 1))) (fZ N 0) in
  put tmp (idx i) (fdiv N (fsub N (tmp (idx i)) sum) (at2 lu i i)).
Definition LUSolveN (lu : mem) (idx : nat -> nat) (b tmp : mem) : mem :=
  let tmp := fold_left (fwd_step lu idx b) (seq 0 dim) tmp in
  let tmp := fold_left (bwd_step lu idx) (rev (seq 0 dim)) tmp in
  fun i => tmp (idx i).

(** NotSoBasicLinearAlgebra.h:193-221 [Invert(A, out)] and [Invert(A)]; out.Column(j) = x writes
    out(i,j) = x(i) (BasicLinearAlgebra.h:36-43).  Result: returned value and content of out. *)
Definition InvertN (m out junk tmp : mem) : bool * mem :=
  let '(singular, s) := LUDecomposeN m junk in
  if singular then (false, out)
  else (true, fold_left (fun out j =>
         let b := put (fun _ => fZ N 0) j (fZ N 1) in
         let x := LUSolveN (lu_m s) (lu_idx s) b tmp in
         fold_left (fun out i => put2 out i j (x i)) (seq 0 dim) out) (seq 0 dim) out).

(** NotSoBasicLinearAlgebra.h:231-246 [Determinant]; simplification: A_copy has the element type of
    A (the code copies to float). *)
Definition DeterminantN (m junk : mem) : F :=
  let s := snd (LUDecomposeN m junk) in
  fold_left (fun det i => fmul N det (at2 (lu_m s) i i)) (seq 0 dim) (lu_parity s).

(** NotSoBasicLinearAlgebra.h:248-261 [Norm], 263-274 [Trace]. *)
Definition NormN (m : mem) : F :=
  fsqrt N (fold_left (fun s i => fold_left (fun s j => fadd N s (fmul N (at2 m i j) (at2 m i j))) (seq 0 dim) s)
            (seq 0 dim) (fZ N 0)).
Definition TraceN (m : mem) : F := fold_left (fun s i => fadd N s (at2 m i i)) (seq 0 dim) (fZ N 0).

(** NotSoBasicLinearAlgebra.h:13-33, ElementStorage.h:158-166 (Permutation), 168-192
    (LowerTriangleOnesDiagonal), 194-214 (UpperTriangle): the views decomp.P(), L(), U(). *)
Definition viewP (s : lu_state) (row col : nat) : F := if Nat.eqb (lu_idx s col) row then fZ N 1 else fZ N 0.
Definition viewL (s : lu_state) (row col : nat) : F :=
  if Nat.ltb col row then at2 (lu_m s) row col else if Nat.eqb row col then fZ N 1 else fZ N 0.
Definition viewU (s : lu_state) (row col : nat) : F := if Nat.leb row col then at2 (lu_m s) row col else fZ N 0.

(** BasicLinearAlgebra.h:35-43 [operator=]: (i,j) in row order, each element of the right-hand side
    is read when it is needed.  [view] may read the destination, which it is given as it is then. *)
Definition AssignN (dst : mem) (view : mem -> nat -> nat -> F) : mem :=
  fold_left (fun m i => fold_left (fun m j => put2 m i j (view m i j)) (seq 0 dim) m) (seq 0 dim) dst.
(** BasicLinearAlgebra.h:235-242 [operator~] with ElementStorage.h:122-132 (Trans): a view, no copy. *)
Definition transpose_of (a : mem) (_ : mem) (i j : nat) : F := at2 a j i.
(** the same view of the destination itself: "A = ~A" *)
Definition transpose_self (m : mem) (i j : nat) : F := at2 m j i.
(** BasicLinearAlgebra.h:157-170 [operator+=], 182-195 [operator-=] (square matrices) *)
Definition AddN (dst b : mem) : mem := AssignN dst (fun m i j => fadd N (at2 m i j) (at2 b i j)).
Definition SubN (dst b : mem) : mem := AssignN dst (fun m i j => fsub N (at2 m i j) (at2 b i j)).
(** "A += A": the operand is the destination *)
Definition AddSelfN (dst : mem) : mem := AssignN dst (fun m i j => fadd N (at2 m i j) (at2 m i j)).
(** BasicLinearAlgebra.h:197-213 [operator*] for square operands: first product, then += for k = 1.. *)
Definition dotN (a b : mem) (i j : nat) : F :=
  fold_left (fun s k => fadd N s (fmul N (at2 a i k) (at2 b k j))) (seq 1 (dim - 1)) (fmul N (at2 a i 0) (at2 b 0 j)).
Definition MulN (a b ret : mem) : mem := AssignN ret (fun _ i j => dotN a b i j).
(** BasicLinearAlgebra.h:215-222 [operator*=] with the operand possibly the destination itself: the
    product is computed into a temporary first. *)
Definition MulAssignN (m b tmp : mem) : mem := let p := MulN m b tmp in AssignN m (fun _ i j => at2 p i j).
End LinalgN.
Arguments LU {N}. Arguments lu_m {N}. Arguments lu_parity {N}. Arguments lu_idx {N}. Arguments lu_scale {N}.
