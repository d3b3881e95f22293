(** Model of the parts of BasicLinearAlgebra (lib/linalg/src) used by the alignment code,
    specialised to 3x3 matrices of double. *)
From Verif Require Import Base Num.

Section Linalg.
Context (N : Num).
Notation F := (F N).

(** lib/linalg/src/ElementStorage.h:5-13, [Array<3,3,double>]: element (r,c) is m[r*3+c]. *)
Record mat := Mat { m00 : F; m01 : F; m02 : F; m10 : F; m11 : F; m12 : F; m20 : F; m21 : F; m22 : F }.

Definition mget (a : mat) (r c : nat) : F :=
  match r, c with
  | 0, 0 => m00 a | 0, 1 => m01 a | 0, _ => m02 a
  | 1, 0 => m10 a | 1, 1 => m11 a | 1, _ => m12 a
  | _, 0 => m20 a | _, 1 => m21 a | _, _ => m22 a
  end%nat.

Definition mset (a : mat) (r c : nat) (v : F) : mat :=
  let '(Mat a00 a01 a02 a10 a11 a12 a20 a21 a22) := a in
  match r, c with
  | 0, 0 => Mat v a01 a02 a10 a11 a12 a20 a21 a22
  | 0, 1 => Mat a00 v a02 a10 a11 a12 a20 a21 a22
  | 0, _ => Mat a00 a01 v a10 a11 a12 a20 a21 a22
  | 1, 0 => Mat a00 a01 a02 v a11 a12 a20 a21 a22
  | 1, 1 => Mat a00 a01 a02 a10 v a12 a20 a21 a22
  | 1, _ => Mat a00 a01 a02 a10 a11 v a20 a21 a22
  | _, 0 => Mat a00 a01 a02 a10 a11 a12 v a21 a22
  | _, 1 => Mat a00 a01 a02 a10 a11 a12 a20 v a22
  | _, _ => Mat a00 a01 a02 a10 a11 a12 a20 a21 v
  end%nat.

(** lib/linalg/src/ElementStorage.h:46-52 with linalg.h:123-124, [Identity<3,3>] *)
Definition identity : mat :=
  Mat (fZ N 1) (fZ N 0) (fZ N 0) (fZ N 0) (fZ N 1) (fZ N 0) (fZ N 0) (fZ N 0) (fZ N 1).

Record vec := Vec { v0 : F; v1 : F; v2 : F }.
Definition vget (v : vec) (i : nat) : F := match i with 0 => v0 v | 1 => v1 v | _ => v2 v end%nat.
Definition vset (v : vec) (i : nat) (x : F) : vec :=
  match i with 0 => Vec x (v1 v) (v2 v) | 1 => Vec (v0 v) x (v2 v) | _ => Vec (v0 v) (v1 v) x end%nat.

(** lib/linalg/src/BasicLinearAlgebra.h:197-213, [operator*]: first product, then += for k = 1,2. *)
Definition dot3 (a0 a1 a2 b0 b1 b2 : F) : F :=
  fadd N (fadd N (fmul N a0 b0) (fmul N a1 b1)) (fmul N a2 b2).

Definition mmul (a b : mat) : mat :=
  let el i j := dot3 (mget a i 0) (mget a i 1) (mget a i 2) (mget b 0 j) (mget b 1 j) (mget b 2 j) in
  (Mat (el 0 0) (el 0 1) (el 0 2) (el 1 0) (el 1 1) (el 1 2) (el 2 0) (el 2 1) (el 2 2))%nat.

Definition mvmul (a : mat) (v : vec) : vec :=
  let el i := dot3 (mget a i 0) (mget a i 1) (mget a i 2) (v0 v) (v1 v) (v2 v) in
  (Vec (el 0) (el 1) (el 2))%nat.

(** C's fmax: the non-NaN argument if one is NaN. *)
Definition fmax (x y : F) : F :=
  if flt N x y then y else if feq N x x then x else y.

(** Permutation and row scale vectors (int idx[3], double row_scale[3]). *)
Definition idx3 := (nat * nat * nat)%type.
Definition iget (p : idx3) (i : nat) : nat :=
  let '(a, b, c) := p in match i with 0 => a | 1 => b | _ => c end%nat.
Definition iset (p : idx3) (i v : nat) : idx3 :=
  let '(a, b, c) := p in match i with 0 => (v, b, c) | 1 => (a, v, c) | _ => (a, b, v) end%nat.

(** Value found just behind m[8]; the loop "j <= dim" (NotSoBasicLinearAlgebra.h:55) reads it for
    row 2.  [UB OobRead] is the ISO reading, [Ok junk] lets execution continue with any value. *)
Context (m9 : res F).

(** NotSoBasicLinearAlgebra.h:50-69: largest |A(i,j)| over j = 0..3, where A(i,3) is m[3*i+3],
    i.e. the first element of the next row, or m[9]. *)
Definition row_largest (a : mat) (i : nat) : res F :=
  do a3 <- (match i with 0%nat => Ok (mget a 1 0) | 1%nat => Ok (mget a 2 0) | _ => m9 end);
  Ok (fmax (fabs N a3) (fmax (fabs N (mget a i 2)) (fmax (fabs N (mget a i 1))
       (fmax (fabs N (mget a i 0)) (fZ N 0))))).

(** NotSoBasicLinearAlgebra.h:74-98: column update of Crout's method for column [j]:
    first rows i < j, then rows i >= j, in increasing order of i. *)
Definition crout_elem (a : mat) (i j bound : nat) : mat :=
  let sum := fold_left (fun s k => fadd N s (fmul N (mget a i k) (mget a k j))) (seq 0 bound) (fZ N 0) in
  mset a i j (fsub N (mget a i j) sum).

Definition crout_column (a : mat) (j : nat) : mat :=
  let a := fold_left (fun a i => crout_elem a i j i) (seq 0 j) a in
  fold_left (fun a i => crout_elem a i j j) (seq j (3 - j)) a.

(** NotSoBasicLinearAlgebra.h:100-113: pivot search, last index among equals wins. *)
Definition find_pivot (a : mat) (row_scale : vec) (j : nat) : nat :=
  snd (fold_left (fun '(largest, argmax) i =>
          let this_elem := fmul N (vget row_scale i) (fabs N (mget a i j)) in
          if fle N largest this_elem then (this_elem, i) else (largest, argmax))
        (seq j (3 - j)) (fZ N 0, j)).

Definition swap_rows (a : mat) (r s : nat) : mat :=
  fold_left (fun a k => let x := mget a r k in mset (mset a r k (mget a s k)) s k x) (seq 0 3) a.

(** NotSoBasicLinearAlgebra.h:71-143: one pass of the column loop. *)
Definition lu_step (st : mat * idx3 * vec) (j : nat) : mat * idx3 * vec :=
  let '(a, idx, row_scale) := st in
  let a := crout_column a j in
  let argmax := find_pivot a row_scale j in
  let '(a, idx, row_scale) :=
    if Nat.eqb j argmax then (a, idx, row_scale)
    else (swap_rows a argmax j,
          (let ij := iget idx j in iset (iset idx j (iget idx argmax)) argmax ij),
          vset row_scale argmax (vget row_scale j)) in
  let a := if feq N (mget a j j) (fZ N 0) then mset a j j (fq N 1 100000000000000000000) else a in
  let pivot_inv := fdiv N (fZ N 1) (mget a j j) in
  let a := fold_left (fun a i => mset a i j (fmul N (mget a i j) pivot_inv)) (seq (j + 1) (3 - (j + 1))) a in
  (a, idx, row_scale).

(** NotSoBasicLinearAlgebra.h:35-147 [LUDecompose]: None = singular.  (decomp.parity is not
    modelled: it is never read by Invert.) *)
Definition LUDecompose (a : mat) : res (option (mat * idx3)) :=
  do l0 <- row_largest a 0;
  if feq N l0 (fZ N 0) then Ok None else
  do l1 <- row_largest a 1;
  if feq N l1 (fZ N 0) then Ok None else
  do l2 <- row_largest a 2;
  if feq N l2 (fZ N 0) then Ok None else
  let row_scale := Vec (fdiv N (fZ N 1) l0) (fdiv N (fZ N 1) l1) (fdiv N (fZ N 1) l2) in
  let '(a, idx, _) := fold_left lu_step (seq 0 3) (a, (0, 1, 2)%nat, row_scale) in
  Ok (Some (a, idx)).

(** NotSoBasicLinearAlgebra.h:149-191 [LUSolve].  tmp is written before it is read (all three
    entries in the forward pass), so its initial content is irrelevant; it starts as zeros here. *)
Definition LUSolve (lu : mat) (idx : idx3) (b : vec) : vec :=
  let tmp := fold_left (fun tmp i =>
      let sum := fold_left (fun s j => fadd N s (fmul N (mget lu i j) (vget tmp (iget idx j)))) (seq 0 i) (fZ N 0) in
      vset tmp (iget idx i) (fsub N (vget b (iget idx i)) sum))
    (seq 0 3) (Vec (fZ N 0) (fZ N 0) (fZ N 0)) in
  let tmp := fold_left (fun tmp i =>
      let sum := fold_left (fun s j => fadd N s (fmul N (mget lu i j) (vget tmp (iget idx j)))) (seq (i + 1) (3 - (i + 1))) (fZ N 0) in
      vset tmp (iget idx i) (fdiv N (fsub N (vget tmp (iget idx i)) sum) (mget lu i i)))
    [2; 1; 0]%nat tmp in
  Vec (vget tmp (iget idx 0)) (vget tmp (iget idx 1)) (vget tmp (iget idx 2)).

(** NotSoBasicLinearAlgebra.h:193-221 [Invert]: None = returned false (matrix untouched). *)
Definition Invert (a : mat) : res (option mat) :=
  do d <- LUDecompose a;
  match d with
  | None => Ok None
  | Some (lu, idx) =>
      let c0 := LUSolve lu idx (Vec (fZ N 1) (fZ N 0) (fZ N 0)) in
      let c1 := LUSolve lu idx (Vec (fZ N 0) (fZ N 1) (fZ N 0)) in
      let c2 := LUSolve lu idx (Vec (fZ N 0) (fZ N 0) (fZ N 1)) in
      Ok (Some (Mat (v0 c0) (v0 c1) (v0 c2) (v1 c0) (v1 c1) (v1 c2) (v2 c0) (v2 c1) (v2 c2)))
  end.
End Linalg.
Arguments Mat {N}. Arguments Vec {N}.
Arguments m00 {N}. Arguments m01 {N}. Arguments m02 {N}. Arguments m10 {N}. Arguments m11 {N}.
Arguments m12 {N}. Arguments m20 {N}. Arguments m21 {N}. Arguments m22 {N}.
Arguments v0 {N}. Arguments v1 {N}. Arguments v2 {N}.
Arguments mget {N}. Arguments mset {N}. Arguments vget {N}. Arguments vset {N}.
