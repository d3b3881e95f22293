(** LUDecompose, LUSolve and Invert in binary64: what they compute, and the residual of the inverse. *)
From Verif Require Import Base Num M_Linalg P_Round P_LinIEEE P_LinIEEE2 P_LinIEEE3.
From Coq Require Import Reals Lra Psatz.
From Flocq Require Import Core.
Open Scope R_scope.

Notation matB := (mat NumB).
Notation BMat := (@Mat NumB).
Notation BVec := (@Vec NumB).

Ltac nz := repeat first [rewrite (b64_of_int 0) by lia | rewrite (b64_of_int 1) by lia | rewrite Rminus_0_r | rewrite Rplus_0_l | rewrite b64_id'].
Lemma b64_abs_nonneg s x : 0 <= s -> 0 <= b64 (s * Rabs x).
Proof. intros H. rewrite <- (b64_of_int 0) by lia. apply b64_mono. apply Rmult_le_pos; [exact H|apply Rabs_pos]. Qed.

(** step 0 *)
Definition sc (rs : vec NumB) (i : nat) (x : R) : R := b64 (vget rs i * Rabs x).
Lemma stepB0 (a : matB) (rs : vec NumB) : (forall i, (i < 3)%nat -> 0 <= (vget rs i : R)) ->
  (forall i, (i < 3)%nat -> is_b64 (mget a i 0)) ->
  (forall p, (p < 3)%nat -> (forall i, (i < 3)%nat -> sc rs i (mget a i 0) <= sc rs p (mget a p 0)) -> (mget a p 0 : R) <> 0) ->
  exists i0 i1 i2 rs',
    lu_step NumB (a, (0, 1, 2)%nat, rs) 0 =
      (BMat (mget a i0 0) (mget a i0 1) (mget a i0 2) (mult (mget a i1 0) (mget a i0 0)) (mget a i1 1) (mget a i1 2)
            (mult (mget a i2 0) (mget a i0 0)) (mget a i2 1) (mget a i2 2), (i0, i1, i2), rs') /\
    ((i0, i1, i2) = (0, 1, 2) \/ (i0, i1, i2) = (1, 0, 2) \/ (i0, i1, i2) = (2, 1, 0))%nat /\
    vget rs' 1 = vget rs i1 /\ vget rs' 2 = vget rs i2 /\ (mget a i0 0 : R) <> 0 /\
    (forall i, (i < 3)%nat -> sc rs i (mget a i 0) <= sc rs i0 (mget a i0 0)).
Proof.
  intros Hrs Hf Hnz. destruct a as [a b c d e f g h i].
  pose proof (Hf 0%nat ltac:(lia)) as Fa. pose proof (Hf 1%nat ltac:(lia)) as Fd. pose proof (Hf 2%nat ltac:(lia)) as Fg.
  cbn [mget m00 m10 m20] in Fa, Fd, Fg.
  unfold lu_step. set (a1 := crout_column NumB (BMat a b c d e f g h i) 0).
  assert (Ha1 : a1 = BMat a b c d e f g h i).
  { unfold a1, crout_column, crout_elem. cbn [seq fold_left Nat.sub mset mget m00 m01 m02 m10 m11 m12 m20 m21 m22].
    cbn [fsub fadd fmul fZ NumB]. nz. rewrite (b64_id a Fa), (b64_id d Fd), (b64_id g Fg). reflexivity. }
  rewrite Ha1. clear a1 Ha1.
  assert (Ep : exists p, find_pivot NumB (BMat a b c d e f g h i) rs 0 = p /\ (p < 3)%nat /\ forall k, (k < 3)%nat -> sc rs k (mget (BMat a b c d e f g h i) k 0) <= sc rs p (mget (BMat a b c d e f g h i) p 0)).
  { eexists. split; [reflexivity|]. unfold find_pivot. cbn [seq fold_left Nat.sub]. cbn [fle fabs fmul fZ NumB mget m00 m10 m20]. nz.
    change (b64 (vget rs 0 * Rabs a)) with (sc rs 0 a). change (b64 (vget rs 1 * Rabs d)) with (sc rs 1 d). change (b64 (vget rs 2 * Rabs g)) with (sc rs 2 g).
    assert (P0 : 0 <= sc rs 0 a) by (apply b64_abs_nonneg, (Hrs 0%nat); lia).
    rewrite (Rle_bool_true _ _ P0). cbv iota beta. cbn [mget m00 m10 m20]. change (b64 (vget rs 0 * Rabs a)) with (sc rs 0 a). change (b64 (vget rs 1 * Rabs d)) with (sc rs 1 d). change (b64 (vget rs 2 * Rabs g)) with (sc rs 2 g).
    destruct (Rle_bool_spec (sc rs 0 a) (sc rs 1 d)) as [C1|C1]; cbv iota beta; cbn [mget m00 m10 m20]; change (b64 (vget rs 0 * Rabs a)) with (sc rs 0 a); change (b64 (vget rs 1 * Rabs d)) with (sc rs 1 d); change (b64 (vget rs 2 * Rabs g)) with (sc rs 2 g).
    - destruct (Rle_bool_spec (sc rs 1 d) (sc rs 2 g)) as [C2|C2]; cbn [snd]; (split; [lia|]);
        intros [|[|[|k]]] Hk; try lia; cbn [mget m00 m10 m20]; lra.
    - destruct (Rle_bool_spec (sc rs 0 a) (sc rs 2 g)) as [C2|C2]; cbn [snd]; (split; [lia|]);
        intros [|[|[|k]]] Hk; try lia; cbn [mget m00 m10 m20]; lra. }
  destruct Ep as (p & Ep & Hp & Hw). rewrite Ep. pose proof (Hnz p Hp Hw) as Hn.
  assert (E1 : b64 (IZR 1) = 1) by (apply (b64_of_int 1); lia).
  destruct p as [|[|[|p]]]; [| | |lia]; cbn [Nat.eqb mget m00 m10 m20] in Hn |- *.
  - cbn [feq fZ NumB]. nz. rewrite (Req_bool_false a 0 Hn).
    cbn [seq fold_left Nat.sub Nat.add mset mget m00 m01 m02 m10 m11 m12 m20 m21 m22 fmul fdiv fZ NumB]. rewrite ?E1.
    exists 0%nat, 1%nat, 2%nat, rs. split; [reflexivity|]. split; [auto|]. split; [reflexivity|]. split; [reflexivity|]. split; [exact Hn|exact Hw].
  - unfold swap_rows. cbn [seq fold_left mset mget m00 m01 m02 m10 m11 m12 m20 m21 m22].
    cbn [feq fZ NumB]. nz. rewrite (Req_bool_false d 0 Hn).
    cbn [seq fold_left Nat.sub Nat.add mset mget m00 m01 m02 m10 m11 m12 m20 m21 m22 fmul fdiv fZ NumB iget iset]. rewrite ?E1.
    eexists 1%nat, 0%nat, 2%nat, _. split; [reflexivity|]. split; [auto|]. split; [reflexivity|]. split; [reflexivity|]. split; [exact Hn|exact Hw].
  - unfold swap_rows. cbn [seq fold_left mset mget m00 m01 m02 m10 m11 m12 m20 m21 m22].
    cbn [feq fZ NumB]. nz. rewrite (Req_bool_false g 0 Hn).
    cbn [seq fold_left Nat.sub Nat.add mset mget m00 m01 m02 m10 m11 m12 m20 m21 m22 fmul fdiv fZ NumB iget iset]. rewrite ?E1.
    eexists 2%nat, 1%nat, 0%nat, _. split; [reflexivity|]. split; [auto|]. split; [reflexivity|]. split; [reflexivity|]. split; [exact Hn|exact Hw].
Qed.

(** step 1 *)
Lemma stepB1 (u00 u01 u02 l1 b1 c1 l2 b2 c2 : R) (i0 i1 i2 : nat) (rs : vec NumB) :
  (forall i, (i < 3)%nat -> 0 <= (vget rs i : R)) -> is_b64 u01 ->
  let e1 := elem1 u01 b1 l1 in let e2 := elem1 u01 b2 l2 in
  (sc rs 2 e2 <= sc rs 1 e1 -> e1 <> 0) -> (sc rs 1 e1 <= sc rs 2 e2 -> e2 <> 0) ->
  exists rs',
   (sc rs 2 e2 <= sc rs 1 e1 /\ lu_step NumB (BMat u00 u01 u02 l1 b1 c1 l2 b2 c2, (i0, i1, i2), rs) 1 =
      (BMat u00 u01 u02 l1 e1 c1 l2 (mult e2 e1) c2, (i0, i1, i2), rs')) \/
   (sc rs 1 e1 <= sc rs 2 e2 /\ lu_step NumB (BMat u00 u01 u02 l1 b1 c1 l2 b2 c2, (i0, i1, i2), rs) 1 =
      (BMat u00 u01 u02 l2 e2 c2 l1 (mult e1 e2) c1, (i0, i2, i1), rs')).
Proof.
  intros Hrs F01 e1 e2 N1 N2. unfold lu_step. set (a1 := crout_column NumB _ 1).
  assert (Ha1 : a1 = BMat u00 u01 u02 l1 e1 c1 l2 e2 c2).
  { unfold a1, crout_column, crout_elem. cbn [seq fold_left Nat.sub mset mget m00 m01 m02 m10 m11 m12 m20 m21 m22].
    cbn [fsub fadd fmul fZ NumB]. nz. rewrite (b64_id u01 F01). nz. reflexivity. }
  rewrite Ha1. clear a1 Ha1. clearbody e1 e2.
  assert (E1 : b64 (IZR 1) = 1) by (apply (b64_of_int 1); lia).
  unfold find_pivot. cbn [seq fold_left Nat.sub]. cbn [fle fabs fmul fZ NumB mget m11 m21]. nz.
  change (b64 (vget rs 1 * Rabs e1)) with (sc rs 1 e1). change (b64 (vget rs 2 * Rabs e2)) with (sc rs 2 e2).
  assert (P0 : 0 <= sc rs 1 e1) by (apply b64_abs_nonneg, (Hrs 1%nat); lia).
  rewrite (Rle_bool_true _ _ P0). cbv iota beta. cbn [mget m11 m21]. change (b64 (vget rs 1 * Rabs e1)) with (sc rs 1 e1). change (b64 (vget rs 2 * Rabs e2)) with (sc rs 2 e2).
  destruct (Rle_bool_spec (sc rs 1 e1) (sc rs 2 e2)) as [C|C]; cbn [snd Nat.eqb].
  - eexists. right. split; [exact C|]. specialize (N2 C).
    unfold swap_rows. cbn [seq fold_left mset mget m00 m01 m02 m10 m11 m12 m20 m21 m22].
    cbn [feq fZ NumB]. nz. rewrite (Req_bool_false e2 0 N2).
    cbn [seq fold_left Nat.sub Nat.add mset mget m00 m01 m02 m10 m11 m12 m20 m21 m22 fmul fdiv fZ NumB iget iset]. rewrite ?E1. reflexivity.
  - eexists. left. apply Rlt_le in C. split; [exact C|]. specialize (N1 C).
    cbn [mget m11 feq fZ NumB]. nz. rewrite (Req_bool_false e1 0 N1).
    cbn [seq fold_left Nat.sub Nat.add mset mget m00 m01 m02 m10 m11 m12 m20 m21 m22 fmul fdiv fZ NumB iget iset]. rewrite ?E1. reflexivity.
Qed.

(** step 2 *)
Lemma stepB2 (u00 u01 u02 l1 u11 c1 l2 l21 c2 : R) idx (rs : vec NumB) : is_b64 u02 ->
  let u12 := b64 (c1 - b64 (l1 * u02)) in
  let u22 := b64 (c2 - b64 (b64 (l2 * u02) + b64 (l21 * u12))) in
  u22 <> 0 ->
  exists rs', lu_step NumB (BMat u00 u01 u02 l1 u11 c1 l2 l21 c2, idx, rs) 2 = (BMat u00 u01 u02 l1 u11 u12 l2 l21 u22, idx, rs').
Proof.
  intros F02 u12 u22 Hne. unfold lu_step. set (a1 := crout_column NumB _ 2).
  assert (Ha1 : a1 = BMat u00 u01 u02 l1 u11 u12 l2 l21 u22).
  { unfold a1, crout_column, crout_elem. cbn [seq fold_left Nat.sub mset mget m00 m01 m02 m10 m11 m12 m20 m21 m22].
    cbn [fsub fadd fmul fZ NumB]. nz. rewrite (b64_id u02 F02). nz. reflexivity. }
  rewrite Ha1. clear a1 Ha1. clearbody u22 u12.
  assert (Ep : find_pivot NumB (BMat u00 u01 u02 l1 u11 u12 l2 l21 u22) rs 2 = 2%nat).
  { unfold find_pivot. cbn [seq fold_left Nat.sub]. destruct (fle _ _ _); reflexivity. }
  rewrite Ep. cbn [Nat.eqb].
  cbn [mget m00 m01 m02 m10 m11 m12 m20 m21 m22 feq fZ NumB]. nz. rewrite (Req_bool_false _ 0 Hne).
  cbn [seq fold_left Nat.sub Nat.add]. eexists. reflexivity.
Qed.

(** LUSolve *)
Definition is_perm (p : idx3) : Prop :=
  (p = (0, 1, 2) \/ p = (1, 0, 2) \/ p = (2, 1, 0) \/ p = (0, 2, 1) \/ p = (1, 2, 0) \/ p = (2, 0, 1))%nat.
Lemma LUSolve_B (u00 u01 u02 l1 u11 u12 l2 l21 u22 : R) idx (b : vec NumB) : is_perm idx ->
  (forall i, (i < 3)%nat -> is_b64 (vget b i)) ->
  let f0 := vget b (iget idx 0) : R in let f1 := vget b (iget idx 1) : R in let f2 := vget b (iget idx 2) : R in
  let y1 := b64 (f1 - b64 (l1 * f0)) in
  let y2 := b64 (f2 - b64 (b64 (l2 * f0) + b64 (l21 * y1))) in
  let x2 := b64 (y2 / u22) in
  let x1 := b64 (b64 (y1 - b64 (u12 * x2)) / u11) in
  let x0 := b64 (b64 (f0 - b64 (b64 (u01 * x1) + b64 (u02 * x2))) / u00) in
  LUSolve NumB (BMat u00 u01 u02 l1 u11 u12 l2 l21 u22) idx b = BVec x0 x1 x2.
Proof.
  intros Hp Hb. destruct b as [b0 b1 b2].
  pose proof (Hb 0%nat ltac:(lia)) as F0. pose proof (Hb 1%nat ltac:(lia)) as F1. pose proof (Hb 2%nat ltac:(lia)) as F2.
  cbn [vget v0 v1 v2] in F0, F1, F2. unfold LUSolve.
  destruct Hp as [ -> |[ -> |[ -> |[ -> |[ -> | -> ]]]]];
    cbn [seq fold_left Nat.sub Nat.add iget iset vget vset v0 v1 v2 mget m00 m01 m02 m10 m11 m12 m20 m21 m22
         fsub fadd fmul fdiv fZ NumB]; cbv zeta; nz;
    rewrite ?(b64_id b0 F0), ?(b64_id b1 F1), ?(b64_id b2 F2); nz; reflexivity.
Qed.
