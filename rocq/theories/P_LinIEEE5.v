(** Invert in binary64: the residual and the size of the computed inverse. *)
From Verif Require Import Base Num M_Linalg P_Round P_LinIEEE P_LinIEEE2 P_LinIEEE3 P_LinIEEE4.
From Coq Require Import Reals Lra Psatz.
From Flocq Require Import Core.
Open Scope R_scope.

Lemma fmaxB (x y : R) : fmax NumB x y = Rmax x y.
Proof.
  unfold fmax. cbn [flt feq NumB].
  destruct (Rlt_bool_spec x y); [rewrite Rmax_right; lra|].
  rewrite Req_bool_true by reflexivity. rewrite Rmax_left; lra.
Qed.
(** the size of row [i], as the code computes it *)
Definition size_of (m9 : R) (a : matB) (i : nat) : R :=
  Rmax (Rabs (match i with 0%nat => mget a 1 0 | 1%nat => mget a 2 0 | _ => m9 end))
   (Rmax (Rabs (mget a i 2)) (Rmax (Rabs (mget a i 1)) (Rmax (Rabs (mget a i 0)) 0))).
Lemma row_largest_B (m9 : R) (a : matB) i : row_largest NumB (Ok m9) a i = Ok (size_of m9 a i).
Proof.
  unfold row_largest, size_of. destruct i as [|[|i]]; cbn [bind]; rewrite !fmaxB; cbn [fabs fZ NumB]; rewrite (b64_of_int 0) by lia; reflexivity.
Qed.
Lemma size_bounds (m9 : R) (a : matB) i j : (j < 3)%nat -> Rabs (mget a i j : R) <= size_of m9 a i.
Proof.
  intros Hj. unfold size_of. set (A := Rabs (mget a i 0)). set (B := Rabs (mget a i 1)). set (C := Rabs (mget a i 2)). set (z := Rabs (match i with 0%nat => mget a 1 0 | 1%nat => mget a 2 0 | _ => m9 end)).
  pose proof (Rmax_l A 0). pose proof (Rmax_r A 0). set (D := Rmax A 0) in *.
  pose proof (Rmax_l B D). pose proof (Rmax_r B D). set (E := Rmax B D) in *.
  pose proof (Rmax_l C E). pose proof (Rmax_r C E). set (G := Rmax C E) in *.
  pose proof (Rmax_r z G). destruct j as [|[|[|j]]]; [fold A|fold B|fold C|lia]; lra.
Qed.

Definition all_b64 (a : matB) : Prop := forall i j, (i < 3)%nat -> (j < 3)%nat -> is_b64 (mget a i j).
(** the condition of a matrix with respect to row sizes *)
Definition well_conditioned (k : R) (S : nat -> R) (a : matB) : Prop :=
  conditioned k (S 0%nat) (S 1%nat) (S 2%nat) (mget a 0 0) (mget a 0 1) (mget a 0 2) (mget a 1 0) (mget a 1 1) (mget a 1 2) (mget a 2 0) (mget a 2 1) (mget a 2 2).
Definition cond_rows (k : R) (S : nat -> R) (a : matB) (i0 i1 i2 : nat) : Prop :=
  conditioned k (S i0) (S i1) (S i2) (mget a i0 0) (mget a i0 1) (mget a i0 2) (mget a i1 0) (mget a i1 1) (mget a i1 2) (mget a i2 0) (mget a i2 1) (mget a i2 2).
Lemma cond_perm k S a i0 i1 i2 : well_conditioned k S a -> is_perm (i0, i1, i2) -> cond_rows k S a i0 i1 i2.
Proof.
  intros K Hp. unfold cond_rows. destruct Hp as [E|[E|[E|[E|[E|E]]]]]; injection E as -> -> ->; intros x y z;
    destruct (K x y z) as [H|[H|H]]; auto.
Qed.
Definition fact (S : nat -> R) (a : matB) (i0 i1 i2 : nat) :=
  factors (S i0) (S i1) (S i2) (mget a i0 0) (mget a i0 1) (mget a i0 2) (mget a i1 0) (mget a i1 1) (mget a i1 2) (mget a i2 0) (mget a i2 1) (mget a i2 2).

Section Inv.
Context (m9 : R) (a : matB) (Fa : all_b64 a) (k : R).
Notation S := (size_of m9 a).
Context (HS : forall i, (i < 3)%nat -> sz (S i)) (K : well_conditioned k S a) (Hk : 160 * w * k <= 1).

Lemma scale_nonneg i : (i < 3)%nat -> 0 <= b64 (1 / S i).
Proof.
  intros Hi. pose proof (sz_pos _ (HS i Hi)) as P. rewrite <- (b64_of_int 0) by lia. apply b64_mono. simpl. apply Rlt_le, Rdiv_lt_0_compat; lra.
Qed.
Lemma LUDecompose_B : exists i0 i1 i2 l1 u11 u12 l2 l21 u22,
  LUDecompose NumB (Ok m9) a = Ok (Some (BMat (mget a i0 0) (mget a i0 1) (mget a i0 2) l1 u11 u12 l2 l21 u22, (i0, i1, i2))) /\
  is_perm (i0, i1, i2) /\ fact S a i0 i1 i2 l1 u11 u12 l2 l21 u22.
Proof.
  unfold LUDecompose. rewrite !row_largest_B. cbn [bind feq fZ NumB fdiv]. nz.
  pose proof (HS 0%nat ltac:(lia)) as H0. pose proof (HS 1%nat ltac:(lia)) as H1. pose proof (HS 2%nat ltac:(lia)) as H2.
  pose proof (sz_pos _ H0) as Q0. pose proof (sz_pos _ H1) as Q1. pose proof (sz_pos _ H2) as Q2.
  rewrite !Req_bool_false by lra.
  set (rs := BVec (b64 (1 / S 0%nat)) (b64 (1 / S 1%nat)) (b64 (1 / S 2%nat))).
  assert (Ers : forall i, (i < 3)%nat -> vget rs i = b64 (1 / S i)) by (intros [|[|[|i]]] Hi; [reflexivity|reflexivity|reflexivity|lia]).
  assert (Prs : forall i, (i < 3)%nat -> 0 <= (vget rs i : R)) by (intros i Hi; rewrite (Ers i Hi); apply scale_nonneg, Hi).
  assert (SB : forall i j, (i < 3)%nat -> (j < 3)%nat -> Rabs (mget a i j : R) <= S i) by (intros; apply size_bounds; assumption).
  assert (Wn : forall p q (x y : R), (p < 3)%nat -> (q < 3)%nat -> sc rs q y <= sc rs p x -> wins (S p) x (S q) y).
  { intros p q x y Hp Hq H. unfold sc in H. rewrite (Ers p Hp), (Ers q Hq) in H. exact H. }
  destruct (stepB0 a rs Prs) as (i0 & i1 & i2 & rs1 & E0 & Hi & R1 & R2 & Hn & Hw).
  { intros i Hi. apply Fa; lia. }
  { intros p Hp Hw.
    assert (Q : exists q r, is_perm (p, q, r) /\ (q < 3)%nat /\ (r < 3)%nat).
    { destruct p as [|[|[|p]]]; [exists 1%nat, 2%nat|exists 0%nat, 2%nat|exists 1%nat, 0%nat|lia]; unfold is_perm; intuition lia. }
    destruct Q as (q & r & Pm & Hq & Hr).
    apply (pivot0_nz (S p) (S q) (S r) (HS p Hp) (HS q Hq) (HS r Hr) (mget a p 0) (mget a p 1) (mget a p 2) (mget a q 0) (mget a q 1) (mget a q 2) (mget a r 0) (mget a r 1) (mget a r 2)) with (k := k); auto.
    apply cond_perm; assumption. }
  assert (B : (i0 < 3)%nat /\ (i1 < 3)%nat /\ (i2 < 3)%nat /\ is_perm (i0, i1, i2) /\ is_perm (i0, i2, i1)).
  { unfold is_perm. destruct Hi as [E|[E|E]]; injection E as -> -> ->; repeat split; try lia; tauto. }
  destruct B as (L0 & L1 & L2 & Pm & Pm').
  assert (Fac : forall j1 j2, (j1 < 3)%nat -> (j2 < 3)%nat -> is_perm (i0, j1, j2) ->
    let e1 := elem1 (mget a i0 1) (mget a j1 1) (mult (mget a j1 0) (mget a i0 0)) in
    let e2 := elem1 (mget a i0 1) (mget a j2 1) (mult (mget a j2 0) (mget a i0 0)) in
    wins (S j1) e1 (S j2) e2 ->
    let l1 := mult (mget a j1 0) (mget a i0 0) in let l2 := mult (mget a j2 0) (mget a i0 0) in
    let l21 := mult e2 e1 in
    let u12 := b64 (mget a j1 2 - b64 (l1 * mget a i0 2)) in
    let u22 := b64 (mget a j2 2 - b64 (b64 (l2 * mget a i0 2) + b64 (l21 * u12))) in
    fact S a i0 j1 j2 l1 e1 u12 l2 l21 u22).
  { intros j1 j2 J1 J2 Pj e1 e2 We l1 l2 l21 u12 u22.
    assert (W1 := Wn i0 j1 _ _ L0 J1 (Hw j1 J1)). assert (W2 := Wn i0 j2 _ _ L0 J2 (Hw j2 J2)).
    assert (Kj := cond_perm k S a i0 j1 j2 K Pj).
    destruct (mult0 (S i0) (S j1) (S j2) (HS i0 L0) (HS j1 J1) (HS j2 J2) (mget a i0 0) (mget a i0 1) (mget a i0 2) (mget a j1 0) (mget a j1 1) (mget a j1 2) (mget a j2 0) (mget a j2 1) (mget a j2 2)
      ltac:(auto) ltac:(auto) ltac:(auto) k Kj Hk W1 W2) as [[D1 M1] [D2 M2]].
    apply lu_factors with (k := k); auto. }
  cbn [seq fold_left]. match goal with |- context [lu_step NumB (a, ?x, rs) 0] => change x with (0, 1, 2)%nat end. rewrite E0.
  match goal with |- context [lu_step NumB (BMat ?u00 ?u01 ?u02 ?l1 ?b1 ?c1 ?l2 ?b2 ?c2, ?ix, rs1) 1] =>
    destruct (stepB1 u00 u01 u02 l1 b1 c1 l2 b2 c2 i0 i1 i2 rs1) as (rs2 & Hs) end.
  { intros [|[|[|i]]] Hi3; [|rewrite R1; apply Prs; lia|rewrite R2; apply Prs; lia|lia].
    clear - E0 Hi Prs. unfold lu_step in E0. revert E0.
    destruct (find_pivot NumB (crout_column NumB a 0) rs 0) as [|[|[|p]]]; cbn [Nat.eqb]; intros E0; apply (f_equal snd) in E0; cbn [snd] in E0; subst rs1;
      apply (Prs 0%nat); lia. }
  { apply Fa; lia. }
  { intros Hc. assert (W := Wn i1 i2 _ _ L1 L2 (ltac:(unfold sc in *; rewrite R1, R2 in Hc; exact Hc))).
    exact (f_p1 _ _ _ _ _ _ _ _ _ _ _ _ _ _ _ _ _ _ (Fac i1 i2 L1 L2 Pm W)). }
  { intros Hc. assert (W := Wn i2 i1 _ _ L2 L1 (ltac:(unfold sc in *; rewrite R1, R2 in Hc; exact Hc))).
    exact (f_p1 _ _ _ _ _ _ _ _ _ _ _ _ _ _ _ _ _ _ (Fac i2 i1 L2 L1 Pm' W)). }
  destruct Hs as [[Hc E1]|[Hc E1]]; rewrite E1.
  - assert (W := Wn i1 i2 _ _ L1 L2 (ltac:(unfold sc in *; rewrite R1, R2 in Hc; exact Hc))).
    pose proof (Fac i1 i2 L1 L2 Pm W) as FF. cbv zeta in FF.
    match goal with |- context [lu_step NumB (BMat ?u00 ?u01 ?u02 ?l1 ?u11 ?c1 ?l2 ?l21 ?c2, ?ix, rs2) 2] =>
      destruct (stepB2 u00 u01 u02 l1 u11 c1 l2 l21 c2 ix rs2) as (rs3 & E2) end.
    { apply Fa; lia. }
    { exact (f_p2 _ _ _ _ _ _ _ _ _ _ _ _ _ _ _ _ _ _ FF). }
    match goal with |- context [lu_step NumB ?st 2] => set (r2 := lu_step NumB st 2) end. assert (Er2 := E2 : r2 = _). rewrite Er2. clear r2 Er2. do 9 eexists. split; [reflexivity|]. split; [exact Pm|exact FF].
  - assert (W := Wn i2 i1 _ _ L2 L1 (ltac:(unfold sc in *; rewrite R1, R2 in Hc; exact Hc))).
    pose proof (Fac i2 i1 L2 L1 Pm' W) as FF. cbv zeta in FF.
    match goal with |- context [lu_step NumB (BMat ?u00 ?u01 ?u02 ?l1 ?u11 ?c1 ?l2 ?l21 ?c2, ?ix, rs2) 2] =>
      destruct (stepB2 u00 u01 u02 l1 u11 c1 l2 l21 c2 ix rs2) as (rs3 & E2) end.
    { apply Fa; lia. }
    { exact (f_p2 _ _ _ _ _ _ _ _ _ _ _ _ _ _ _ _ _ _ FF). }
    match goal with |- context [lu_step NumB ?st 2] => set (r2 := lu_step NumB st 2) end. assert (Er2 := E2 : r2 = _). rewrite Er2. clear r2 Er2. do 9 eexists. split; [reflexivity|]. split; [exact Pm'|exact FF].
Qed.

Definition unit3 (j : nat) : vec NumB := match j with 0%nat => BVec 1 0 0 | 1%nat => BVec 0 1 0 | _ => BVec 0 0 1 end.
Definition delta (i j : nat) : R := if Nat.eqb i j then 1 else 0.
Lemma vget_unit3 i j : (i < 3)%nat -> (j < 3)%nat -> vget (unit3 j) i = delta i j.
Proof. intros Hi Hj. destruct i as [|[|[|i]]]; try lia; destruct j as [|[|[|j]]]; try lia; reflexivity. Qed.
Lemma sz_inv s : sz s -> sz (/ s).
Proof.
  intros H. pose proof (sz_pos _ H). destruct H as [L U]. split.
  - change (-60)%Z with (- (60))%Z. rewrite bpow_opp. apply Rinv_le; lra.
  - replace (bpow radix2 60) with (/ bpow radix2 (-60)) by (rewrite <- bpow_opp; reflexivity). apply Rinv_le; [apply bpow_gt_0|lra].
Qed.

Lemma k1 : 1 <= k.
Proof.
  apply (k_ge1 (S 0%nat) (S 1%nat) (S 2%nat) (HS 0%nat ltac:(lia)) (HS 1%nat ltac:(lia)) (HS 2%nat ltac:(lia)) (mget a 0 0) (mget a 0 1) (mget a 0 2) (mget a 1 0) (mget a 1 1) (mget a 1 2) (mget a 2 0) (mget a 2 1) (mget a 2 2)); try (apply size_bounds; lia). exact K.
Qed.

(** The computed inverse: every residual is small, every column has a bounded size. *)
Theorem Invert_B : exists X, Invert NumB (Ok m9) a = Ok (Some X) /\
  (forall i j, (i < 3)%nat -> (j < 3)%nat ->
     Rabs (mget a i 0 * mget X 0 j + mget a i 1 * mget X 1 j + mget a i 2 * mget X 2 j - delta i j) <= 107 * w * k * (S i / S j)) /\
  (forall j, (j < 3)%nat -> norm1 (mget X 0 j) (mget X 1 j) (mget X 2 j) <= 5 / 3 * k / S j).
Proof.
  destruct LUDecompose_B as (i0 & i1 & i2 & l1 & u11 & u12 & l2 & l21 & u22 & E & Pm & FF).
  unfold Invert. rewrite E. cbn [bind].
  assert (L : (i0 < 3)%nat /\ (i1 < 3)%nat /\ (i2 < 3)%nat).
  { destruct Pm as [Ei|[Ei|[Ei|[Ei|[Ei|Ei]]]]]; injection Ei as -> -> ->; lia. }
  destruct L as (L0 & L1 & L2).
  set (lu := BMat (mget a i0 0) (mget a i0 1) (mget a i0 2) l1 u11 u12 l2 l21 u22).
  assert (SB : forall i j, (i < 3)%nat -> (j < 3)%nat -> Rabs (mget a i j : R) <= S i) by (intros; apply size_bounds; assumption).
  assert (Col : forall j, (j < 3)%nat -> exists x0 x1 x2, LUSolve NumB lu (i0, i1, i2) (unit3 j) = BVec x0 x1 x2 /\
    (forall i, (i < 3)%nat -> Rabs (mget a i 0 * x0 + mget a i 1 * x1 + mget a i 2 * x2 - delta i j) <= 107 * w * k * (S i / S j)) /\
    norm1 x0 x1 x2 <= 5 / 3 * k / S j).
  { intros j Hj. pose proof (HS j Hj) as Hs. pose proof (sz_pos _ Hs) as Qs. pose proof k1 as K1. pose proof w_small as W.
    pose proof (LUSolve_B (mget a i0 0) (mget a i0 1) (mget a i0 2) l1 u11 u12 l2 l21 u22 (i0, i1, i2) (unit3 j) Pm) as ES.
    cbv zeta in ES. cbn [iget] in ES. fold lu in ES.
    assert (G : forall i, (i < 3)%nat -> Rabs (vget (unit3 j) i : R) <= / S j * S i).
    { intros i Hi. rewrite vget_unit3 by assumption. unfold delta. destruct (Nat.eqb_spec i j) as [->|].
      - rewrite Rabs_R1, Rinv_l by lra. lra.
      - rewrite Rabs_R0. apply Rmult_le_pos; [apply Rlt_le, Rinv_0_lt_compat; lra|apply Rlt_le, sz_pos, HS, Hi]. }
    pose proof (solve_residual (S i0) (S i1) (S i2) (HS i0 L0) (HS i1 L1) (HS i2 L2) (mget a i0 0) (mget a i0 1) (mget a i0 2) (mget a i1 0) (mget a i1 1) (mget a i1 2) (mget a i2 0) (mget a i2 1) (mget a i2 2)
      ltac:(auto) ltac:(auto) ltac:(auto) (/ S j) (sz_inv _ Hs) (vget (unit3 j) i0) (vget (unit3 j) i1) (vget (unit3 j) i2) (G i0 L0) (G i1 L1) (G i2 L2) l1 u11 u12 l2 l21 u22 FF) as SR.
    cbv zeta in SR.
    rewrite ES by (intros i Hi; rewrite vget_unit3 by assumption; unfold delta; destruct (Nat.eqb i j); [apply (is_b64_int 1)|apply (is_b64_int 0)]; lia). clear ES.
    match type of SR with context [Rabs (?A * ?x + ?B * ?y + ?C * ?z - ?f)] => set (x2 := z) in * end.
    match type of SR with context [Rabs (?A * ?x + ?B * ?y + ?C * ?z - ?f)] => set (x1 := y) in * end.
    match type of SR with context [Rabs (?A * ?x + ?B * ?y + ?C * ?z - ?f)] => set (x0 := x) in * end.
    clearbody x0 x1 x2. exists x0, x1, x2. split; [reflexivity|].
    fold (norm1 x0 x1 x2) in SR. destruct SR as (SR0 & SR1 & SR2).
    assert (NS : norm1 x0 x1 x2 <= 5 / 3 * k * / S j).
    { apply (solution_size (S i0) (S i1) (S i2) (HS i0 L0) (HS i1 L1) (HS i2 L2) (mget a i0 0) (mget a i0 1) (mget a i0 2) (mget a i1 0) (mget a i1 1) (mget a i1 2) (mget a i2 0) (mget a i2 1) (mget a i2 2))
        with (f0 := vget (unit3 j) i0) (f1 := vget (unit3 j) i1) (f2 := vget (unit3 j) i2); auto.
      - apply cond_perm; assumption.
      - apply Rinv_0_lt_compat; lra. }
    split; [|exact NS].
    assert (T : forall i, (i < 3)%nat -> Rabs (mget a i 0 * x0 + mget a i 1 * x1 + mget a i 2 * x2 - vget (unit3 j) i) <= 40 * w * (norm1 x0 x1 x2 + / S j) * S i).
    { intros i Hi. destruct Pm as [Ei|[Ei|[Ei|[Ei|[Ei|Ei]]]]]; injection Ei as -> -> ->; destruct i as [|[|[|i]]]; try lia; assumption. }
    intros i Hi. rewrite <- (vget_unit3 i j Hi Hj). eapply Rle_trans; [apply (T i Hi)|].
    pose proof (sz_pos _ (HS i Hi)) as Qi. unfold Rdiv.
    replace (107 * w * k * (S i * / S j)) with (w * (107 * k * / S j) * S i) by ring.
    replace (40 * w * (norm1 x0 x1 x2 + / S j) * S i) with (w * (40 * (norm1 x0 x1 x2 + / S j)) * S i) by ring.
    apply Rmult_le_compat_r; [lra|]. apply Rmult_le_compat_l; [lra|].
    assert (/ S j <= k * / S j). { rewrite <- (Rmult_1_l (/ S j)) at 1. apply Rmult_le_compat_r; [apply Rlt_le, Rinv_0_lt_compat; lra|lra]. }
    assert (0 < / S j) by (apply Rinv_0_lt_compat; lra). lra. }
  destruct (Col 0%nat ltac:(lia)) as (x0 & x1 & x2 & EX & RX & NX).
  destruct (Col 1%nat ltac:(lia)) as (y0 & y1 & y2 & EY & RY & NY).
  destruct (Col 2%nat ltac:(lia)) as (z0 & z1 & z2 & EZ & RZ & NZ).
  cbn [fZ NumB]. rewrite (b64_of_int 0), (b64_of_int 1) by lia. fold lu.
  change (BVec 1 0 0) with (unit3 0). change (BVec 0 1 0) with (unit3 1). change (BVec 0 0 1) with (unit3 2). rewrite EX, EY, EZ. cbn [v0 v1 v2].
  eexists. split; [reflexivity|]. split.
  - intros i [|[|[|j]]] Hi Hj; try lia; cbn [mget m00 m01 m02 m10 m11 m12 m20 m21 m22]; [apply RX|apply RY|apply RZ]; exact Hi.
  - intros [|[|[|j]]] Hj; try lia; cbn [mget m00 m01 m02 m10 m11 m12 m20 m21 m22]; assumption.
Qed.
End Inv.
