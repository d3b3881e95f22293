(** Determinant for every dimension, and the agreement of the general template with M_Linalg.v at dim = 3. *)
From Verif Require Import Base Num M_LinalgN S_LinalgN P_LinalgN.
From Coq Require Import Reals Lra Psatz Arith.
From Flocq Require Import Core.
Open Scope R_scope.

Section D.
Context (n : nat) (D : matrix -> R) (HD : is_determinant n D).
Notation memR := (nat -> R).

Lemma D_ext a b : same_matrix n a b -> D a = D b. Proof. apply HD. Qed.
Lemma D_lin a r v w s : (r < n)%nat ->
  D (with_row a r (fun j => s * v j + w j)) = s * D (with_row a r v) + D (with_row a r w).
Proof. apply HD. Qed.
Lemma D_equal a r s : (r < n)%nat -> (s < n)%nat -> r <> s -> (forall j, (j < n)%nat -> a r j = a s j) -> D a = 0.
Proof. apply HD. Qed.
Lemma row_same a r v w : (forall j, (j < n)%nat -> v j = w j) -> D (with_row a r v) = D (with_row a r w).
Proof. intros H. apply D_ext. intros i j Hi Hj. unfold with_row. destruct (Nat.eqb i r); auto. Qed.
Lemma D_zero_row a r : (r < n)%nat -> D (with_row a r (fun _ => 0)) = 0.
Proof.
  intros Hr. pose proof (D_lin a r (fun _ => 0) (fun _ => 0) 1 Hr) as E.
  cbv beta in E. rewrite (row_same a r (fun j => 1 * 0 + 0) (fun _ => 0)) in E by (intros; lra). lra.
Qed.
Lemma row_id a r : D (with_row a r (a r)) = D a.
Proof. apply D_ext. intros i j Hi Hj. unfold with_row. destruct (Nat.eqb_spec i r); subst; reflexivity. Qed.
(** a row replaced by a combination of all rows *)
Lemma D_comb a r c : (r < n)%nat -> c r = 0 -> forall s q, (q <= n)%nat ->
  D (with_row a r (fun j => s * a r j + sumR q (fun k => c k * a k j))) = s * D a.
Proof.
  intros Hr Hc s. induction q; intros Hq.
  - cbn [sumR]. rewrite (D_lin a r (a r) (fun _ => 0)) by exact Hr. rewrite D_zero_row, row_id by exact Hr. lra.
  - cbn [sumR]. rewrite (row_same a r _ (fun j => c q * a q j + (s * a r j + sumR q (fun k => c k * a k j)))) by (intros; lra).
    rewrite D_lin by exact Hr. rewrite IHq by lia.
    destruct (Nat.eq_dec q r) as [->|Hne]; [rewrite Hc; lra|].
    rewrite (D_equal (with_row a r (a q)) r q); [lra|lia|lia|auto|].
    intros j Hj. unfold with_row. rewrite Nat.eqb_refl, (proj2 (Nat.eqb_neq q r)) by exact Hne. reflexivity.
Qed.

Lemma D_swap a r s : (r < n)%nat -> (s < n)%nat -> r <> s -> D (fun i => a (tr r s i)) = - D a.
Proof.
  intros Hr Hs Hne.
  pose (W := fun v w : nat -> R => with_row (with_row a r v) s w).
  assert (L1 : forall v v' w, D (W (fun j => v j + v' j) w) = D (W v w) + D (W v' w)).
  { intros v v' w.
    assert (X : forall v, D (W v w) = D (with_row (with_row a s w) r v)).
    { intros u. apply D_ext. intros i j Hi Hj. unfold W, with_row. destruct (Nat.eqb_spec i s), (Nat.eqb_spec i r); subst; congruence. }
    rewrite !X. rewrite (row_same _ r (fun j => v j + v' j) (fun j => 1 * v j + v' j)) by (intros; lra). rewrite D_lin by exact Hr. lra. }
  assert (L2 : forall v w w', D (W v (fun j => w j + w' j)) = D (W v w) + D (W v w')).
  { intros v w w'. unfold W. rewrite (row_same _ s (fun j => w j + w' j) (fun j => 1 * w j + w' j)) by (intros; lra). rewrite D_lin by exact Hs. lra. }
  assert (Z : forall v, D (W v v) = 0).
  { intros v. apply (D_equal _ r s Hr Hs Hne). intros j Hj. unfold W, with_row.
    rewrite (proj2 (Nat.eqb_neq r s)), !Nat.eqb_refl by exact Hne. reflexivity. }
  pose proof (Z (fun j => a r j + a s j)) as E. rewrite L1, !L2, !Z in E.
  assert (E1 : D (W (a r) (a s)) = D a).
  { apply D_ext. intros i j Hi Hj. unfold W, with_row. destruct (Nat.eqb_spec i s), (Nat.eqb_spec i r); subst; reflexivity. }
  assert (E2 : D (W (a s) (a r)) = D (fun i => a (tr r s i))).
  { apply D_ext. intros i j Hi Hj. unfold W, with_row, tr. destruct (Nat.eqb_spec i s), (Nat.eqb_spec i r); subst; congruence || reflexivity. }
  lra.
Qed.

Lemma D_upper U : (forall k c, (c < k)%nat -> U k c = 0) -> D U = prodR n (fun i => U i i).
Proof.
  intros HU. pose (M := fun t i c => if Nat.ltb i t then U i c else unit_matrix i c).
  assert (H : forall t, (t <= n)%nat -> D (M t) = prodR t (fun i => U i i)).
  { induction t; intros Ht.
    - cbn [prodR]. transitivity (D unit_matrix); [|apply HD]. apply D_ext. intros i j _ _. reflexivity.
    - cbn [prodR]. rewrite <- IHt by lia. rewrite Rmult_comm.
      rewrite <- (D_comb (M t) t (fun c => if Nat.ltb t c then U t c else 0)) with (q := n); [|lia| |lia].
      2:{ rewrite (proj2 (Nat.ltb_ge t t)) by lia. reflexivity. }
      apply D_ext. intros i j Hi Hj. unfold with_row. destruct (Nat.eqb_spec i t) as [->|Hne].
      + unfold M at 1. rewrite (proj2 (Nat.ltb_lt t (S t))) by lia.
        unfold M at 1. rewrite (proj2 (Nat.ltb_ge t t)) by lia.
        destruct (lt_eq_lt_dec j t) as [[Hjt| ->]|Hjt].
        * rewrite HU by exact Hjt. unfold unit_matrix at 1. rewrite (proj2 (Nat.eqb_neq t j)) by lia.
          rewrite sum_zero; [lra|]. intros k Hk. destruct (Nat.ltb_spec t k); [|lra].
          unfold M. rewrite (proj2 (Nat.ltb_ge k t)) by lia. unfold unit_matrix. rewrite (proj2 (Nat.eqb_neq k j)) by lia. lra.
        * unfold unit_matrix at 1. rewrite Nat.eqb_refl. rewrite sum_zero; [lra|]. intros k Hk. destruct (Nat.ltb_spec t k); [|lra].
          unfold M. rewrite (proj2 (Nat.ltb_ge k t)) by lia. unfold unit_matrix. rewrite (proj2 (Nat.eqb_neq k t)) by lia. lra.
        * unfold unit_matrix at 1. rewrite (proj2 (Nat.eqb_neq t j)) by lia. rewrite (sum_one n j); [|exact Hj|].
          -- rewrite (proj2 (Nat.ltb_lt t j)) by lia. unfold M. rewrite (proj2 (Nat.ltb_ge j t)) by lia.
             unfold unit_matrix. rewrite Nat.eqb_refl. lra.
          -- intros k Hk Hkj. destruct (Nat.ltb_spec t k); [|lra].
             unfold M. rewrite (proj2 (Nat.ltb_ge k t)) by lia. unfold unit_matrix. rewrite (proj2 (Nat.eqb_neq k j)) by lia. lra.
      + unfold M. destruct (Nat.ltb_spec i (S t)), (Nat.ltb_spec i t); try reflexivity; lia. }
  rewrite <- (H n) by lia. apply D_ext. intros i j Hi _. unfold M. rewrite (proj2 (Nat.ltb_lt i n)) by exact Hi. reflexivity.
Qed.

Lemma D_unit_lower L U : (forall i, L i i = 1) -> (forall i k, (i < k)%nat -> L i k = 0) -> D (product n L U) = D U.
Proof.
  intros L1 L0. pose (M := fun t i c => if Nat.ltb i t then U i c else product n L U i c).
  assert (H : forall q, (q <= n)%nat -> D (M (n - q)%nat) = D U).
  { induction q; intros Hq.
    - rewrite Nat.sub_0_r. apply D_ext. intros i j Hi _. unfold M. rewrite (proj2 (Nat.ltb_lt i n)) by exact Hi. reflexivity.
    - rewrite <- IHq by lia. set (t := (n - S q)%nat). replace (n - q)%nat with (S t) by lia.
      rewrite <- (Rmult_1_l (D (M (S t)))).
      rewrite <- (D_comb (M (S t)) t (fun k => if Nat.ltb k t then L t k else 0)) with (q := n); [|lia| |lia].
      2:{ rewrite (proj2 (Nat.ltb_ge t t)) by lia. reflexivity. }
      apply D_ext. intros i j Hi Hj. unfold with_row. destruct (Nat.eqb_spec i t) as [->|Hne].
      + unfold M at 1. rewrite (proj2 (Nat.ltb_ge t t)) by lia. unfold M at 1. rewrite (proj2 (Nat.ltb_lt t (S t))) by lia.
        unfold product. rewrite (sum_split n t) by lia. rewrite L1. rewrite (sum_zero (n - S t)).
        2:{ intros k Hk. rewrite L0 by lia. lra. }
        rewrite (sum_cut n t) by (try lia; intros k Hk; rewrite (proj2 (Nat.ltb_ge k t)) by lia; lra).
        rewrite (sum_ext t (fun k => L t k * U k j) (fun k => (if Nat.ltb k t then L t k else 0) * M (S t) k j)); [lra|].
        intros k Hk. rewrite (proj2 (Nat.ltb_lt k t)) by exact Hk. unfold M. rewrite (proj2 (Nat.ltb_lt k (S t))) by lia. reflexivity.
      + unfold M. destruct (Nat.ltb_spec i (S t)), (Nat.ltb_spec i t); try reflexivity; lia. }
  rewrite <- (H n) by lia. rewrite Nat.sub_diag. apply D_ext. intros i j _ _. reflexivity.
Qed.

(** ** Determinant *)
Lemma parity_ok (m junk : memR) s : LUDecomposeN NumR n m junk = (false, s) ->
  forall B, (lu_parity s : R) * D (fun i => B (lu_idx s i)) = D B.
Proof.
  intros E B. unfold LUDecomposeN in E. destruct (row_scales_spec n m (seq 0 n) junk) as [_ Hrs].
  destruct (row_scalesN NumR n m (seq 0 n) junk) as [rs|]; [|discriminate]. injection E as <-.
  pose (P := fun j (s : lu_state NumR) => (exists z, LUInv n (stored n m) z j s) /\ (lu_parity s : R) * D (fun i => B (lu_idx s i)) = D B).
  assert (H : P (0 + n)%nat (fold_left (lu_stepN NumR n) (seq 0 n) (@LU NumR m (fZ NumR 1) (fun i => i) rs))).
  { apply (fold_seq_ind P).
    - split.
      + exists (fun _ => false). split; [split; cbn; auto|]. split; [|split; [|split]]; cbn [lu_m lu_idx lu_scale]; try (intros; lia).
        * intros i Hi. apply (Hrs rs eq_refl). left. apply in_seq. lia.
        * intros; reflexivity.
      + cbn [lu_parity lu_idx fZ NumR]. rewrite Rmult_1_l. reflexivity.
    - intros j s Hj [[z HI] Hp]. destruct (lu_step_inv n _ z j s ltac:(lia) HI) as (b & HI' & _).
      split; [eexists; exact HI'|].
      unfold lu_stepN. set (m1 := crout_columnN NumR n (lu_m s) j).
      destruct (find_pivot_spec n m1 (lu_scale s) j ltac:(lia) (proj1 (proj2 HI))) as [Hq _].
      set (p := find_pivotN NumR n m1 (lu_scale s) j) in *. cbn [lu_parity lu_idx].
      destruct (lu_swap_spec n (@LU NumR m1 (lu_parity s) (lu_idx s) (lu_scale s)) j p ltac:(lia) ltac:(lia)) as (_ & S2 & _ & S4).
      cbn [lu_parity lu_idx] in S2, S4. rewrite S4.
      rewrite (D_ext _ (fun i => B (lu_idx s (tr p j i)))) by (intros i c Hi Hc; rewrite S2 by exact Hi; reflexivity).
      destruct (Nat.eqb_spec j p) as [E|Hne].
      + rewrite <- E. rewrite (D_ext _ (fun i => B (lu_idx s i))) by (intros i c _ _; rewrite tr_same; reflexivity). exact Hp.
      + rewrite (D_swap (fun i => B (lu_idx s i)) p j) by (try lia; auto). rewrite <- Hp. lra. }
  exact (proj2 H).
Qed.

Lemma determinant_false (m junk : memR) s : LUDecomposeN NumR n m junk = (false, s) ->
  exists z, (regular n (stored n m) -> forall c, (c < n)%nat -> z c = false) /\
  forall B, perturbed n (stored n m) (lu_idx s) z B -> DeterminantN NumR n m junk = D B :> R.
Proof.
  intros E. destruct (decompose_spec n m junk s E) as (z & HI & Hz). exists z. split; [exact Hz|].
  intros B HB. unfold DeterminantN. rewrite E. cbn [snd]. cbn [fmul NumR].
  rewrite (fold_prod (fun i => at2 NumR n (lu_m s) i i)). rewrite <- (parity_ok m junk s E B). f_equal.
  destruct HI as (Iperm & _ & Ilow & _ & _).
  rewrite (D_ext (fun i => B (lu_idx s i)) (product n (Lf n (lu_m s)) (Uf n (lu_m s)))).
  - rewrite D_unit_lower.
    + rewrite D_upper.
      * assert (G : forall q f g, (forall k, f k = g k) -> prodR q f = prodR q g) by (induction q; intros; cbn [prodR]; [reflexivity|]; rewrite (IHq f g), H by assumption; reflexivity).
        apply G. intros k. unfold Uf. rewrite Nat.leb_refl. reflexivity.
      * intros k c Hc. unfold Uf. rewrite (proj2 (Nat.leb_gt k c)) by exact Hc. reflexivity.
    + intros i. unfold Lf. rewrite (proj2 (Nat.ltb_ge i i)), Nat.eqb_refl by lia. reflexivity.
    + intros i k Hk. unfold Lf. rewrite (proj2 (Nat.ltb_ge k i)), (proj2 (Nat.eqb_neq i k)) by lia. reflexivity.
  - intros i c Hi Hc. rewrite HB by assumption. apply Ilow; assumption.
Qed.

Lemma determinant_reported (m junk : memR) : fst (LUDecomposeN NumR n m junk) = true ->
  DeterminantN NumR n m junk = 0 :> R /\ D (stored n m) = 0.
Proof.
  intros H. pose proof (proj1 (decompose_singular_iff n m junk) H) as (i & Hi & Hz).
  assert (Hz' : forall j, (j < n)%nat -> stored n m i j = 0) by (intros j Hj; apply Hz; lia).
  split.
  - unfold DeterminantN. unfold LUDecomposeN in *. destruct (row_scalesN NumR n m (seq 0 n) junk); [discriminate|]. cbn [snd lu_m lu_parity fmul NumR].
    rewrite (fold_prod (fun i => at2 NumR n m i i)).
    assert (G : forall q, (i < q)%nat -> prodR q (fun i => at2 NumR n m i i) = 0).
    { induction q; intros Hq; [lia|]. cbn [prodR]. destruct (Nat.eq_dec i q) as [->|]; [|rewrite IHq by lia; lra].
      change (at2 NumR n m q q) with (stored n m q q). rewrite Hz' by lia. lra. }
    rewrite G by exact Hi. lra.
  - rewrite <- (row_id (stored n m) i). rewrite (row_same _ i _ (fun _ => 0)) by exact Hz'. apply D_zero_row. exact Hi.
Qed.

Lemma determinant_ok (m junk : memR) : invertible n (stored n m) -> DeterminantN NumR n m junk = D (stored n m) :> R.
Proof.
  intros Hi. pose proof (invertible_not_reported n m junk Hi) as Hf.
  destruct (LUDecomposeN NumR n m junk) as [b s] eqn:E. cbn [fst] in Hf. subst b.
  destruct (determinant_false m junk s E) as (z & Hz & H). apply H.
  intros i c _ Hc. unfold bump. rewrite (Hz (invertible_regular n _ Hi) c Hc), andb_false_r. lra.
Qed.
End D.
