(** C126-C132: the matrix templates for every dimension. *)
From Verif Require Import Base Num M_Linalg M_LinalgN S_LinalgN P_LinalgN P_LinalgDet P_Linalg3.
From Coq Require Import Reals Lra Psatz Arith.
From Flocq Require Import Core.
Open Scope R_scope.
Notation memR := (nat -> R).

(** ** C126 *)
(** [out], [junk], [tmp]: previous content of the result, of row_scale and of LUSolve's temporaries.
    The value stored behind the matrix is m (n*n); it is arbitrary. *)
Theorem C126_inverse_every_size : forall n (m out junk tmp : memR), invertible n (stored n m) ->
  fst (InvertN NumR n m out junk tmp) = true /\
  inverse_of n (stored n m) (stored n (snd (InvertN NumR n m out junk tmp))).
Proof. intros n m out junk tmp. apply invert_ok. Qed.
Print Assumptions C126_inverse_every_size.

(** The 3x3 model used for the alignment (M_Linalg.v) is this template at dim = 3, for every
    arithmetic, IEEE double included.  [laid_out m a]: m[0..8] are the elements of [a]. *)
Definition laid_out (N : Num) (m : mem N) (a : mat N) : Prop :=
  m 0%nat = m00 a /\ m 1%nat = m01 a /\ m 2%nat = m02 a /\ m 3%nat = m10 a /\ m 4%nat = m11 a /\ m 5%nat = m12 a /\
  m 6%nat = m20 a /\ m 7%nat = m21 a /\ m 8%nat = m22 a.
Lemma laid_out_iff N m a : laid_out N m a <-> Rl N m a.
Proof.
  unfold laid_out, Rl, at2. split.
  - intros (E0 & E1 & E2 & E3 & E4 & E5 & E6 & E7 & E8) [|[|[|r]]] [|[|[|c]]] Hr Hc; try (exfalso; lia); cbn; assumption.
  - intros H. repeat split.
    + exact (H 0 0 ltac:(lia) ltac:(lia))%nat. + exact (H 0 1 ltac:(lia) ltac:(lia))%nat. + exact (H 0 2 ltac:(lia) ltac:(lia))%nat.
    + exact (H 1 0 ltac:(lia) ltac:(lia))%nat. + exact (H 1 1 ltac:(lia) ltac:(lia))%nat. + exact (H 1 2 ltac:(lia) ltac:(lia))%nat.
    + exact (H 2 0 ltac:(lia) ltac:(lia))%nat. + exact (H 2 1 ltac:(lia) ltac:(lia))%nat. + exact (H 2 2 ltac:(lia) ltac:(lia))%nat.
Qed.
Theorem C126_three_by_three_is_an_instance : forall N (m out junk tmp : mem N) (a : mat N), laid_out N m a ->
  match Invert N (Ok (m 9%nat)) a with
  | Ok None => InvertN N 3 m out junk tmp = (false, out)
  | Ok (Some b) => fst (InvertN N 3 m out junk tmp) = true /\ laid_out N (snd (InvertN N 3 m out junk tmp)) b
  | UB _ => False
  end.
Proof.
  intros N m out junk tmp a H. apply laid_out_iff in H. pose proof (invert_eq N m a _ out junk tmp H eq_refl) as E.
  destruct (Invert N (Ok (m 9%nat)) a) as [[b|]|]; try exact E. rewrite laid_out_iff. exact E.
Qed.
Print Assumptions C126_three_by_three_is_an_instance.

(** A 4x4 matrix that needs row exchanges: a cyclic permutation matrix. *)
Definition cyc4 : memR := fun k => if orb (orb (Nat.eqb k 1) (Nat.eqb k 6)) (orb (Nat.eqb k 11) (Nat.eqb k 12)) then 1 else 0.
Example C126_hypotheses_met : invertible 4 (stored 4 cyc4).
Proof.
  exists (fun i j => stored 4 cyc4 j i). split; intros [|[|[|[|i]]]] [|[|[|[|j]]]] Hi Hj; try (exfalso; lia);
    unfold product, stored, unit_matrix, cyc4; cbn [sumR Nat.mul Nat.add Nat.eqb orb]; lra.
Qed.

(** ** C127 *)
(** reported as singular: a row is zero, and so is the element stored behind it *)
Theorem C127_reported_exactly : forall n (m out junk tmp : memR),
  fst (InvertN NumR n m out junk tmp) = false <->
  exists i, (i < n)%nat /\ forall k, (k <= n)%nat -> m (i * n + k)%nat = 0.
Proof.
  intros n m out junk tmp. pose proof (decompose_singular_iff n m junk) as H. unfold at2 in H.
  destruct (invert_cases n m out junk tmp) as [[E1 E2]|(E1 & E2 & _)].
  - rewrite E2. cbn [fst]. rewrite <- H, E1. split; reflexivity.
  - rewrite E2, <- H, E1. split; discriminate.
Qed.
Print Assumptions C127_reported_exactly.

(** When nothing is reported the result is at least the right inverse of a matrix that differs from
    the given one by at most 1e-20 in each element; when something is reported the result is untouched. *)
Theorem C127_result_inverts_a_near_matrix : forall n (m out junk tmp : memR),
  (fst (InvertN NumR n m out junk tmp) = false /\ snd (InvertN NumR n m out junk tmp) = out) \/
  (fst (InvertN NumR n m out junk tmp) = true /\
   exists B : matrix, (forall i j, (i < n)%nat -> (j < n)%nat -> Rabs (B i j - stored n m i j) <= 1 / 10 ^ 20) /\
     same_matrix n (product n B (stored n (snd (InvertN NumR n m out junk tmp)))) unit_matrix).
Proof.
  intros n m out junk tmp. destruct (invert_cases n m out junk tmp) as [[_ E]|(_ & E & z & idx & Hp & _ & H)].
  - left. rewrite E. split; reflexivity.
  - right. split; [exact E|].
    (* the row of idx that is r *)
    pose (inv := fun r => match List.find (fun i => Nat.eqb (idx i) r) (seq 0 n) with Some i => i | None => 0%nat end).
    assert (Hinv : forall i, (i < n)%nat -> inv (idx i) = i).
    { intros i Hi. unfold inv. destruct (List.find (fun k => Nat.eqb (idx k) (idx i)) (seq 0 n)) as [k|] eqn:F.
      - apply List.find_some in F. destruct F as [F1 F2]. apply in_seq in F1. apply Nat.eqb_eq in F2. apply (proj2 Hp); [lia|exact Hi|exact F2].
      - exfalso. pose proof (List.find_none _ _ F i ltac:(apply in_seq; lia)) as F'. cbv beta in F'. rewrite Nat.eqb_refl in F'. discriminate. }
    exists (fun r c => stored n m r c + bump z (inv r) c). split.
    + intros i j Hi Hj. replace (stored n m i j + bump z (inv i) j - stored n m i j) with (bump z (inv i) j) by ring.
      unfold bump, eps. destruct (andb _ _); [|rewrite Rabs_R0]; [rewrite Rabs_pos_eq|]; lra.
    + apply H. intros i c Hi Hc. rewrite Hinv by exact Hi. reflexivity.
Qed.
Print Assumptions C127_result_inverts_a_near_matrix.

(** ** C130 *)
(** A = P * L * U, with the views the decomposition offers *)
Theorem C130_decomposition : forall n (m junk : memR), invertible n (stored n m) ->
  fst (LUDecomposeN NumR n m junk) = false /\
  let s := snd (LUDecomposeN NumR n m junk) in
  permutation n (lu_idx s) /\
  (forall i, (i < n)%nat -> viewL NumR n s i i = 1 /\ viewU NumR n s i i <> 0) /\
  (forall i j, (i < j)%nat -> viewL NumR n s i j = 0 /\ viewU NumR n s j i = 0) /\
  same_matrix n (product n (viewP NumR s) (product n (viewL NumR n s) (viewU NumR n s))) (stored n m).
Proof.
  intros n m junk Hi. pose proof (invertible_not_reported n m junk Hi) as Hf. split; [exact Hf|].
  destruct (LUDecomposeN NumR n m junk) as [b s] eqn:E. cbn [fst snd] in *. subst b.
  destruct (decompose_spec n m junk s E) as (z & (Iperm & _ & Ilow & _ & Ipiv) & Hz).
  specialize (Hz (invertible_regular n _ Hi)). split; [exact Iperm|]. split; [|split].
  - intros i Hn. unfold viewL, viewU. rewrite Nat.leb_refl, Nat.eqb_refl, (proj2 (Nat.ltb_ge i i)) by lia.
    split; [reflexivity|apply Ipiv; exact Hn].
  - intros i j Hij. unfold viewL, viewU.
    rewrite (proj2 (Nat.ltb_ge j i)), (proj2 (Nat.eqb_neq i j)), (proj2 (Nat.leb_gt j i)) by lia. split; reflexivity.
  - intros r c Hr Hc. destruct (perm_surj n _ Iperm r Hr) as (i & Hn & <-).
    unfold product at 1. rewrite (sum_one n i).
    2:{ exact Hn. }
    2:{ intros k Hk Hne. unfold viewP. destruct (Nat.eqb_spec (lu_idx s k) (lu_idx s i)) as [E1|]; [|cbn [fZ NumR]; lra].
        exfalso. apply Hne. apply (proj2 Iperm); assumption. }
    unfold viewP. rewrite Nat.eqb_refl. pose proof (Ilow i c Hn Hc) as L. unfold bump in L.
    rewrite (Hz c Hc), andb_false_r, Rplus_0_r in L. rewrite L. cbn [fZ NumR]. rewrite Rmult_1_l. reflexivity.
Qed.
Print Assumptions C130_decomposition.

(** ** C128 *)
(** For every D that is linear and alternating in the rows and 1 on the unit matrix. *)
Theorem C128_determinant_of_regular_matrices : forall n D (m junk : memR), is_determinant n D ->
  invertible n (stored n m) -> DeterminantN NumR n m junk = D (stored n m) :> R.
Proof. intros n D m junk HD. apply (determinant_ok n D HD). Qed.
Print Assumptions C128_determinant_of_regular_matrices.

Theorem C128_determinant_of_reported_matrices : forall n D (m junk : memR), is_determinant n D ->
  (exists i, (i < n)%nat /\ forall k, (k <= n)%nat -> m (i * n + k)%nat = 0) ->
  DeterminantN NumR n m junk = 0 :> R /\ D (stored n m) = 0.
Proof.
  intros n D m junk HD H. apply (determinant_reported n D HD). apply (decompose_singular_iff n m junk). exact H.
Qed.
Print Assumptions C128_determinant_of_reported_matrices.

Example C128_hypotheses_met : is_determinant 2 (fun a => a 0%nat 0%nat * a 1%nat 1%nat - a 0%nat 1%nat * a 1%nat 0%nat) /\
  invertible 2 (stored 2 (fun k => if Nat.eqb k 1 then 1 else if Nat.eqb k 2 then 1 else 0)).
Proof.
  split.
  - split; [|split; [|split]].
    + intros a b H. rewrite !H by lia. reflexivity.
    + intros a [|[|r]] v w s Hr; [| |exfalso; lia]; unfold with_row; cbn [Nat.eqb]; ring.
    + intros a [|[|r]] [|[|s]] Hr Hs Hne H; try (exfalso; lia); rewrite (H 0%nat), (H 1%nat) by lia; ring.
    + unfold unit_matrix; cbn [Nat.eqb]; ring.
  - exists (stored 2 (fun k => if Nat.eqb k 1 then 1 else if Nat.eqb k 2 then 1 else 0)).
    split; intros [|[|i]] [|[|j]] Hi Hj; try (exfalso; lia); unfold product, stored, unit_matrix; cbn [sumR Nat.mul Nat.add Nat.eqb]; lra.
Qed.

(** ** C129: the determinant of a singular matrix *)
Lemma prod_ne n f : (forall k, (k < n)%nat -> f k <> 0) -> prodR n f <> 0.
Proof. induction n; intros H; cbn [prodR]; [lra|]. apply Rmult_integral_contrapositive_currified; [apply IHn; intros; apply H; lia|apply H; lia]. Qed.
(** Every matrix that is not reported gets a nonzero determinant, so every singular matrix without a
    zero row gets a wrong one. *)
Theorem C129_singular_matrices_get_a_nonzero_determinant_refuted : forall n (m junk : memR),
  (forall i, (i < n)%nat -> exists j, (j < n)%nat /\ stored n m i j <> 0) ->
  DeterminantN NumR n m junk <> 0 :> R.
Proof.
  intros n m junk H. assert (Hf : fst (LUDecomposeN NumR n m junk) = false).
  { apply not_true_is_false. rewrite decompose_singular_iff. intros (i & Hi & Hz). destruct (H i Hi) as (j & Hj & Hne). apply Hne, Hz. lia. }
  unfold DeterminantN. destruct (LUDecomposeN NumR n m junk) as [b s] eqn:E. cbn [fst] in Hf. subst b.
  destruct (decompose_spec n m junk s E) as (z & (_ & _ & _ & _ & Hp) & _). cbn [snd fmul NumR].
  rewrite (fold_prod (fun i => at2 NumR n (lu_m s) i i)). apply Rmult_integral_contrapositive_currified; [|apply prod_ne; exact Hp].
  unfold LUDecomposeN in E. destruct (row_scalesN NumR n m (seq 0 n) junk) as [rs|]; [|discriminate]. injection E as <-.
  assert (G : forall l (s : lu_state NumR), (lu_parity s : R) <> 0 -> (lu_parity (fold_left (lu_stepN NumR n) l s) : R) <> 0).
  { clear. induction l as [|j l IH]; intros s Hs; cbn [fold_left]; [exact Hs|]. apply IH. unfold lu_stepN, lu_swap. cbv zeta.
    destruct (Nat.eqb j _); cbn [lu_parity]; [exact Hs|]. cbn [fneg NumR]. change (F NumR) with R in *. intros E. apply Hs. lra. }
  apply G. cbn [lu_parity fZ NumR]. lra.
Qed.
Print Assumptions C129_singular_matrices_get_a_nonzero_determinant_refuted.
Example C129_witness : (forall i, (i < 2)%nat -> exists j, (j < 2)%nat /\ stored 2 (fun _ => 1) i j <> 0) /\
  ~ regular 2 (stored 2 (fun _ => 1)).
Proof.
  split; [intros i _; exists 0%nat; split; [lia|unfold stored; lra]|].
  intros H. specialize (H (fun k => if Nat.eqb k 0 then 1 else -1)). assert (E : 1 = 0); [|lra].
  apply (fun A => H A 0%nat ltac:(lia)). intros i _. unfold stored. cbn [sumR Nat.eqb]. lra.
Qed.
(** The computed value is the determinant of a matrix within 1e-20 (the same one for every D). *)
Theorem C129_determinant_of_a_near_matrix_partial : forall n D (m junk : memR), is_determinant n D ->
  exists B : matrix, (forall i j, (i < n)%nat -> (j < n)%nat -> Rabs (B i j - stored n m i j) <= 1 / 10 ^ 20) /\
    DeterminantN NumR n m junk = D B :> R.
Proof.
  intros n D m junk HD. destruct (LUDecomposeN NumR n m junk) as [[|] s] eqn:E.
  - exists (stored n m). split; [intros; rewrite Rminus_diag_eq, Rabs_R0 by reflexivity; lra|].
    destruct (determinant_reported n D HD m junk) as [-> ->]; [rewrite E; reflexivity|reflexivity].
  - destruct (determinant_false n D HD m junk s E) as (z & _ & H).
    destruct (decompose_spec n m junk s E) as (_ & (Hp & _) & _). set (idx := lu_idx s) in *.
    pose (inv := fun r => match List.find (fun i => Nat.eqb (idx i) r) (seq 0 n) with Some i => i | None => 0%nat end).
    assert (Hinv : forall i, (i < n)%nat -> inv (idx i) = i).
    { intros i Hi. unfold inv. destruct (List.find (fun k => Nat.eqb (idx k) (idx i)) (seq 0 n)) as [k|] eqn:F.
      - apply List.find_some in F. destruct F as [F1 F2]. apply in_seq in F1. apply Nat.eqb_eq in F2. apply (proj2 Hp); [lia|exact Hi|exact F2].
      - exfalso. pose proof (List.find_none _ _ F i ltac:(apply in_seq; lia)) as F'. cbv beta in F'. rewrite Nat.eqb_refl in F'. discriminate. }
    exists (fun r c => stored n m r c + bump z (inv r) c). split.
    + intros i j Hi Hj. replace (stored n m i j + bump z (inv i) j - stored n m i j) with (bump z (inv i) j) by ring.
      unfold bump, eps. destruct (andb _ _); [|rewrite Rabs_R0]; [rewrite Rabs_pos_eq|]; lra.
    + apply H. intros i c Hi Hc. rewrite Hinv by exact Hi. reflexivity.
Qed.
Print Assumptions C129_determinant_of_a_near_matrix_partial.

(** ** C131: arithmetic, for every arithmetic where possible *)
(** assignment element by element, when the right-hand side does not change while it is copied *)
Lemma assign_spec N n (dst : mem N) view (v : nat -> nat -> F N) :
  (forall m i j, (i < n)%nat -> (j < n)%nat ->
     (forall i' j', (i' < n)%nat -> (j' < n)%nat -> (i < i' \/ i = i' /\ j <= j')%nat -> at2 N n m i' j' = at2 N n dst i' j') ->
     (forall i' j', (i' < n)%nat -> (j' < n)%nat -> (i' < i \/ i' = i /\ j' < j)%nat -> at2 N n m i' j' = v i' j') ->
     view m i j = v i j) ->
  forall i j, (i < n)%nat -> (j < n)%nat -> at2 N n (AssignN N n dst view) i j = v i j.
Proof.
  intros Hv.
  assert (AP : forall (m : mem N) r c x r' c', (c < n)%nat -> (c' < n)%nat ->
    at2 N n (put2 N n m r c x) r' c' = if andb (Nat.eqb r' r) (Nat.eqb c' c) then x else at2 N n m r' c').
  { intros m r c x r' c' Hc Hc'. unfold at2, put2, put. destruct (Nat.eqb_spec (r' * n + c') (r * n + c)) as [E|E].
    - apply cell_inj in E; try assumption. destruct E as [-> ->]. rewrite !Nat.eqb_refl. reflexivity.
    - destruct (Nat.eqb_spec r' r); [|reflexivity]. destruct (Nat.eqb_spec c' c); [|reflexivity]. subst. lia. }
  pose (Q := fun i j (m : mem N) =>
     (forall i' j', (i' < n)%nat -> (j' < n)%nat -> (i < i' \/ i = i' /\ j <= j')%nat -> at2 N n m i' j' = at2 N n dst i' j') /\
     (forall i' j', (i' < n)%nat -> (j' < n)%nat -> (i' < i \/ i' = i /\ j' < j)%nat -> at2 N n m i' j' = v i' j')).
  assert (Row : forall i m, (i < n)%nat -> Q i 0%nat m -> Q i (0 + n)%nat (fold_left (fun m j => put2 N n m i j (view m i j)) (seq 0 n) m)).
  { intros i m Hi HQ. apply (fold_seq_ind (Q i)); [exact HQ|]. intros j m' Hj [Q1 Q2].
    rewrite (Hv m' i j Hi ltac:(lia) Q1 Q2). split; intros i' j' Hi' Hj' Hlt; rewrite AP by lia.
    - destruct (Nat.eqb_spec i' i), (Nat.eqb_spec j' j); cbn [andb]; try (apply Q1; lia). exfalso; lia.
    - destruct (Nat.eqb_spec i' i), (Nat.eqb_spec j' j); cbn [andb]; try (apply Q2; lia). subst. reflexivity. }
  assert (All : Q (0 + n)%nat 0%nat (AssignN N n dst view)).
  { unfold AssignN. apply (fold_seq_ind (fun i m => Q i 0%nat m)).
    - split; [reflexivity|intros; exfalso; lia].
    - intros i m Hi HQ. destruct (Row i m ltac:(lia) HQ) as [Q1 Q2]. split; intros i' j' Hi' Hj' Hlt; [apply Q1; lia|apply Q2; lia]. }
  intros i j Hi Hj. apply (proj2 All); lia.
Qed.

Theorem C131_transpose : forall N n (dst a : mem N) i j, (i < n)%nat -> (j < n)%nat ->
  AssignN N n dst (transpose_of N n a) (i * n + j)%nat = a (j * n + i)%nat.
Proof. intros N n dst a i j Hi Hj. apply (assign_spec N n dst _ (fun i j => at2 N n a j i)); auto. Qed.
Print Assumptions C131_transpose.

Theorem C131_sum_and_difference : forall N n (a b : mem N) i j, (i < n)%nat -> (j < n)%nat ->
  AddN N n a b (i * n + j)%nat = fadd N (a (i * n + j)%nat) (b (i * n + j)%nat) /\
  SubN N n a b (i * n + j)%nat = fsub N (a (i * n + j)%nat) (b (i * n + j)%nat) /\
  AddSelfN N n a (i * n + j)%nat = fadd N (a (i * n + j)%nat) (a (i * n + j)%nat).
Proof.
  intros N n a b i j Hi Hj. split; [|split].
  - apply (assign_spec N n a _ (fun i j => fadd N (at2 N n a i j) (at2 N n b i j))); auto.
    intros m r c Hr Hc H1 _. rewrite H1 by (try assumption; lia). reflexivity.
  - apply (assign_spec N n a _ (fun i j => fsub N (at2 N n a i j) (at2 N n b i j))); auto.
    intros m r c Hr Hc H1 _. rewrite H1 by (try assumption; lia). reflexivity.
  - apply (assign_spec N n a _ (fun i j => fadd N (at2 N n a i j) (at2 N n a i j))); auto.
    intros m r c Hr Hc H1 _. rewrite H1 by (try assumption; lia). reflexivity.
Qed.
Print Assumptions C131_sum_and_difference.

Lemma dot_spec n (a b : memR) i j : (0 < n)%nat -> dotN NumR n a b i j = product n (stored n a) (stored n b) i j.
Proof.
  intros Hn. unfold dotN, product. cbn [fadd fmul NumR].
  rewrite (fold_sum (fun k => at2 NumR n a i k * at2 NumR n b k j)). destruct n as [|n]; [lia|].
  rewrite sum_first. cbn [Nat.sub]. rewrite Nat.sub_0_r. reflexivity.
Qed.
Theorem C131_product : forall n (a b ret : memR),
  same_matrix n (stored n (MulN NumR n a b ret)) (product n (stored n a) (stored n b)).
Proof.
  intros n a b ret i j Hi Hj. unfold stored at 1. change (MulN NumR n a b ret (i * n + j)%nat) with (at2 NumR n (MulN NumR n a b ret) i j).
  unfold MulN. rewrite (assign_spec NumR n ret _ (fun i j => dotN NumR n a b i j)) by auto. apply dot_spec. lia.
Qed.
Print Assumptions C131_product.
(** A *= B and A *= A *)
Theorem C131_product_assignment : forall n (a b tmp : memR),
  same_matrix n (stored n (MulAssignN NumR n a b tmp)) (product n (stored n a) (stored n b)) /\
  same_matrix n (stored n (MulAssignN NumR n a a tmp)) (product n (stored n a) (stored n a)).
Proof.
  assert (G : forall n a b tmp, same_matrix n (stored n (MulAssignN NumR n a b tmp)) (product n (stored n a) (stored n b))).
  { intros n a b tmp i j Hi Hj. rewrite <- (C131_product n a b tmp i j Hi Hj).
    unfold stored at 1. change (MulAssignN NumR n a b tmp (i * n + j)%nat) with (at2 NumR n (MulAssignN NumR n a b tmp) i j).
    unfold MulAssignN. cbv zeta. rewrite (assign_spec NumR n a _ (fun i j => at2 NumR n (MulN NumR n a b tmp) i j)) by auto. reflexivity. }
  intros; split; apply G.
Qed.
Print Assumptions C131_product_assignment.

Theorem C131_norm_and_trace : forall n (a : memR),
  NormN NumR n a = sqrt (sumR n (fun i => sumR n (fun j => stored n a i j * stored n a i j))) :> R /\
  TraceN NumR n a = sumR n (fun i => stored n a i i) :> R.
Proof.
  intros n a. split.
  - unfold NormN. cbn [fsqrt fadd fmul fZ NumR]. f_equal.
    assert (G : forall l s, fold_left (fun s i => fold_left (fun s j => s + at2 NumR n a i j * at2 NumR n a i j) (seq 0 n) s) l s
       = fold_left (fun s i => s + sumR n (fun j => stored n a i j * stored n a i j)) l s).
    { induction l as [|i l IH]; intros s; cbn [fold_left]; [reflexivity|]. rewrite IH. f_equal.
      rewrite (fold_sum (fun j => at2 NumR n a i j * at2 NumR n a i j)). f_equal. }
    change (F NumR) with R in *. rewrite G. apply fold_sum0.
  - unfold TraceN. cbn [fadd fZ NumR]. apply (fold_sum0 (fun i => stored n a i i)).
Qed.
Print Assumptions C131_norm_and_trace.

(** ** C132: A = ~A *)
(** every element above the diagonal is replaced by its mirror image, the others keep their values *)
Theorem C132_self_transpose_result_partial : forall N n (a : mem N) i j, (i < n)%nat -> (j < n)%nat ->
  AssignN N n a (transpose_self N n) (i * n + j)%nat = a (Nat.max i j * n + Nat.min i j)%nat.
Proof.
  intros N n a i j Hi Hj. apply (assign_spec N n a _ (fun i j => at2 N n a (Nat.max i j) (Nat.min i j))); auto.
  intros m r c Hr Hc H1 H2. unfold transpose_self. destruct (le_lt_dec r c) as [Hrc|Hrc].
  - rewrite H1 by lia. rewrite Nat.max_r, Nat.min_l by lia. reflexivity.
  - rewrite H2 by lia. f_equal; lia.
Qed.
Print Assumptions C132_self_transpose_result_partial.
(** so it is the transpose only if the matrix was symmetric *)
Theorem C132_self_transpose_refuted : forall N n (a : mem N),
  (forall i j, (i < n)%nat -> (j < n)%nat -> AssignN N n a (transpose_self N n) (i * n + j)%nat = a (j * n + i)%nat) <->
  (forall i j, (i < n)%nat -> (j < n)%nat -> a (i * n + j)%nat = a (j * n + i)%nat).
Proof.
  intros N n a. split; intros H i j Hi Hj.
  - pose proof (H i j Hi Hj) as E1. pose proof (H j i Hj Hi) as E2. rewrite C132_self_transpose_result_partial in E1, E2 by assumption.
    rewrite Nat.max_comm, Nat.min_comm in E2. congruence.
  - rewrite C132_self_transpose_result_partial by assumption. destruct (le_lt_dec i j).
    + rewrite Nat.max_r, Nat.min_l by lia. reflexivity.
    + rewrite Nat.max_l, Nat.min_r by lia. apply H; assumption.
Qed.
Print Assumptions C132_self_transpose_refuted.
