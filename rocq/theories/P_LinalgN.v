(** LUDecompose / LUSolve / Invert / Determinant for every dimension, in exact arithmetic. *)
From Verif Require Import Base Num M_LinalgN S_LinalgN.
From Coq Require Import Reals Lra Psatz Arith.
From Flocq Require Import Core.
Open Scope R_scope.

(** ** sums *)
Lemma sum_ext n f g : (forall k, (k < n)%nat -> f k = g k) -> sumR n f = sumR n g.
Proof. induction n; intros H; cbn [sumR]; [reflexivity|]. rewrite IHn, H by (intros; try apply H; lia). reflexivity. Qed.
Lemma sum_zero n f : (forall k, (k < n)%nat -> f k = 0) -> sumR n f = 0.
Proof. intros H. rewrite (sum_ext n f (fun _ => 0)) by exact H. clear H. induction n; cbn; lra. Qed.
Lemma sum_add n f g : sumR n (fun k => f k + g k) = sumR n f + sumR n g.
Proof. induction n; cbn [sumR]; [lra|]. rewrite IHn. lra. Qed.
Lemma sum_scal n c f : sumR n (fun k => c * f k) = c * sumR n f.
Proof. induction n; cbn [sumR]; [lra|]. rewrite IHn. lra. Qed.
Lemma sum_scal_r n c f : sumR n (fun k => f k * c) = sumR n f * c.
Proof. induction n; cbn [sumR]; [lra|]. rewrite IHn. lra. Qed.
Lemma sum_swap n m (f : nat -> nat -> R) :
  sumR n (fun i => sumR m (fun j => f i j)) = sumR m (fun j => sumR n (fun i => f i j)).
Proof.
  induction n; cbn [sumR].
  - symmetry. apply sum_zero. reflexivity.
  - rewrite IHn, <- sum_add. apply sum_ext. reflexivity.
Qed.
(** only index j contributes *)
Lemma sum_one n j f : (j < n)%nat -> (forall k, (k < n)%nat -> k <> j -> f k = 0) -> sumR n f = f j.
Proof.
  induction n; intros Hj H; [lia|]. cbn [sumR]. destruct (Nat.eq_dec j n) as [->|Hn].
  - rewrite sum_zero; [lra|]. intros k Hk. apply H; lia.
  - rewrite IHn; [rewrite (H n); lra || lia|lia|intros; apply H; lia].
Qed.
Lemma sum_cut n j f : (j <= n)%nat -> (forall k, (j <= k < n)%nat -> f k = 0) -> sumR n f = sumR j f.
Proof.
  induction n; intros Hj H; [assert (j = 0)%nat by lia; subst; reflexivity|].
  destruct (Nat.eq_dec j (S n)) as [->|Hn]; [reflexivity|]. cbn [sumR].
  rewrite IHn, (H n) by (try lia; intros; apply H; lia). lra.
Qed.
Lemma sum_split n j f : (j < n)%nat ->
  sumR n f = sumR j f + f j + sumR (n - S j) (fun t => f (S j + t)%nat).
Proof.
  induction n; intros Hj; [lia|]. destruct (Nat.eq_dec j n) as [->|Hn].
  - rewrite Nat.sub_diag. cbn [sumR]. lra.
  - replace (S n - S j)%nat with (S (n - S j)) by lia. cbn [sumR]. rewrite IHn by lia.
    replace (S j + (n - S j))%nat with n by lia. lra.
Qed.
Lemma sum_first l g : sumR (S l) g = g 0%nat + sumR l (fun t => g (S t)).
Proof. induction l; cbn [sumR] in *; [lra|]. rewrite IHl. lra. Qed.
Lemma fold_sum f : forall l a (s : R), fold_left (fun s k => s + f k) (seq a l) s = s + sumR l (fun t => f (a + t)%nat).
Proof.
  induction l; intros a s; cbn [seq fold_left]; [cbn; lra|].
  rewrite IHl, sum_first, Nat.add_0_r, Rplus_assoc. do 2 f_equal. apply sum_ext. intros k _. f_equal. lia.
Qed.
Lemma fold_sum0 f l : fold_left (fun s k => s + f k) (seq 0 l) 0 = sumR l f.
Proof. rewrite fold_sum. rewrite Rplus_0_l. apply sum_ext. intros; f_equal; lia. Qed.
Lemma fold_prod f : forall l (s : R), fold_left (fun s k => s * f k) (seq 0 l) s = s * prodR l f.
Proof.
  induction l; intros s; [cbn; lra|]. rewrite seq_S, fold_left_app, IHl. cbn [fold_left prodR plus]. lra.
Qed.

(** ** loops *)
Lemma fold_seq_ind {A} (P : nat -> A -> Prop) (f : A -> nat -> A) : forall l a s, P a s ->
  (forall k s, (a <= k < a + l)%nat -> P k s -> P (S k) (f s k)) ->
  P (a + l)%nat (fold_left f (seq a l) s).
Proof.
  induction l; intros a s H0 H; cbn [seq fold_left]; [rewrite Nat.add_0_r; exact H0|].
  replace (a + S l)%nat with (S a + l)%nat by lia. apply IHl; [apply H; [lia|exact H0]|].
  intros k s' Hk. apply H. lia.
Qed.
Lemma fold_down_ind {A} (P : nat -> A -> Prop) (f : A -> nat -> A) : forall l s, P l s ->
  (forall k s, (k < l)%nat -> P (S k) s -> P k (f s k)) -> P 0%nat (fold_left f (rev (seq 0 l)) s).
Proof.
  induction l; intros s H0 H; [exact H0|]. rewrite seq_S, rev_app_distr. cbn [rev app fold_left plus].
  apply IHl; [apply H; [lia|exact H0]|]. intros k s' Hk. apply H. lia.
Qed.

(** ** memory *)
Section N.
Context (n : nat).
Notation memR := (nat -> R).
Notation at_ := (@at2 NumR n).
Notation put_ := (@put2 NumR n).
Lemma cell_inj r c r' c' : (c < n)%nat -> (c' < n)%nat -> (r * n + c = r' * n + c')%nat -> r = r' /\ c = c'.
Proof.
  intros Hc Hc' E. assert (r = r').
  { destruct (lt_eq_lt_dec r r') as [[H| ->]|H]; [|reflexivity|].
    - exfalso. assert (r * n + n <= r' * n)%nat by (replace r' with (r + 1 + (r' - r - 1))%nat by lia; nia). lia.
    - exfalso. assert (r' * n + n <= r * n)%nat by (replace r with (r' + 1 + (r - r' - 1))%nat by lia; nia). lia. }
  subst. lia.
Qed.
Lemma at_put (m : memR) r c v r' c' : (c < n)%nat -> (c' < n)%nat ->
  at_ (put_ m r c v) r' c' = if andb (Nat.eqb r' r) (Nat.eqb c' c) then v else at_ m r' c'.
Proof.
  intros Hc Hc'. unfold at2, put2, put. destruct (Nat.eqb_spec (r' * n + c') (r * n + c)) as [E|E].
  - apply cell_inj in E; try assumption. destruct E as [-> ->]. rewrite !Nat.eqb_refl. reflexivity.
  - destruct (Nat.eqb_spec r' r); [|reflexivity]. destruct (Nat.eqb_spec c' c); [|reflexivity]. subst. lia.
Qed.
Lemma at_put_eq (m : memR) r c v : at_ (put_ m r c v) r c = v.
Proof. unfold at2, put2, put. rewrite Nat.eqb_refl. reflexivity. Qed.
Lemma at_put_ne (m : memR) r c v r' c' : (c < n)%nat -> (c' < n)%nat -> r' <> r \/ c' <> c ->
  at_ (put_ m r c v) r' c' = at_ m r' c'.
Proof.
  intros Hc Hc' H. rewrite at_put by assumption. destruct (Nat.eqb_spec r' r), (Nat.eqb_spec c' c); try reflexivity. lia.
Qed.

(** ** one column of Crout's method *)
(** what column j holds afterwards: row i minus the sum over k < min i j *)
Definition crouted (m m' : memR) (j : nat) : Prop :=
  (forall i c, (i < n)%nat -> (c < n)%nat -> c <> j -> at_ m' i c = at_ m i c) /\
  (forall i, (i < n)%nat -> at_ m' i j = at_ m i j - sumR (Nat.min i j) (fun k => at_ m i k * at_ m' k j)).
Lemma crout_elem_spec (m : memR) i j b : crout_elemN NumR n m i j b =
  put_ m i j (at_ m i j - sumR b (fun k => at_ m i k * at_ m k j)).
Proof. unfold crout_elemN. cbn [fadd fmul fsub fZ NumR]. rewrite (fold_sum0 (fun k => at_ m i k * at_ m k j)). reflexivity. Qed.
Lemma crout_column_spec (m : memR) j : (j < n)%nat -> crouted m (crout_columnN NumR n m j) j.
Proof.
  intros Hj. unfold crout_columnN.
  set (f := fun m i => crout_elemN NumR n m i j i). set (g := fun m i => crout_elemN NumR n m i j j).
  (* state after rows < t *)
  set (P := fun t (m' : memR) =>
    (forall i c, (i < n)%nat -> (c < n)%nat -> c <> j -> at_ m' i c = at_ m i c) /\
    (forall i, (t <= i < n)%nat -> at_ m' i j = at_ m i j) /\
    (forall i, (i < t)%nat -> (i < n)%nat -> at_ m' i j = at_ m i j - sumR (Nat.min i j) (fun k => at_ m i k * at_ m' k j))).
  assert (Hstep : forall b k m', (k < n)%nat -> b = Nat.min k j -> P k m' -> P (S k) (crout_elemN NumR n m' k j b)).
  { intros b k m' Hk -> (A1 & A2 & A3). rewrite crout_elem_spec. split; [|split].
    - intros i c Hi Hc Hn. rewrite at_put_ne by (auto; lia). apply A1; assumption.
    - intros i Hi. rewrite at_put_ne by lia. apply A2. lia.
    - intros i Hi Hi'. destruct (Nat.eq_dec i k) as [->|Hik].
      + rewrite at_put_eq. rewrite A2 by lia. f_equal. apply sum_ext. intros q Hq.
        rewrite A1 by lia. rewrite at_put_ne by lia. reflexivity.
      + rewrite at_put_ne by lia. rewrite A3 by lia. f_equal. apply sum_ext. intros q Hq.
        rewrite at_put_ne by lia. reflexivity. }
  assert (H1 : P (0 + j)%nat (fold_left f (seq 0 j) m)).
  { apply (fold_seq_ind P f).
    - split; [reflexivity|split; [reflexivity|intros; lia]].
    - intros k s Hk. apply Hstep; lia. }
  assert (H2 : P (j + (n - j))%nat (fold_left g (seq j (n - j)) (fold_left f (seq 0 j) m))).
  { apply (fold_seq_ind P g); [exact H1|]. intros k s Hk. apply Hstep; lia. }
  replace (j + (n - j))%nat with n in H2 by lia. destruct H2 as (A1 & _ & A3). split; [exact A1|].
  intros i Hi. apply A3; assumption.
Qed.

(** ** pivot search *)
Lemma find_pivot_spec (m rs : memR) j : (j < n)%nat -> (forall i, (i < n)%nat -> 0 < rs i) ->
  let p := find_pivotN NumR n m rs j in (j <= p < n)%nat /\
  (at_ m p j = 0 -> forall i, (j <= i < n)%nat -> at_ m i j = 0).
Proof.
  intros Hj Hrs. unfold find_pivotN.
  set (f := fun '(largest, argmax) i => _).
  set (P := fun t (s : R * nat) => 0 <= fst s /\ (j <= snd s < n)%nat /\
      (forall i, (j <= i < t)%nat -> rs i * Rabs (at_ m i j) <= fst s) /\
      ((t = j /\ fst s = 0) \/ fst s = rs (snd s) * Rabs (at_ m (snd s) j))).
  assert (H : P (j + (n - j))%nat (fold_left f (seq j (n - j)) (fZ NumR 0, j))).
  { apply (fold_seq_ind P f).
    - split; [cbn; lra|]. split; [cbn; lia|]. split; [intros; lia|]. left. split; reflexivity.
    - intros k [l a] Hk (P1 & P2 & P3 & P4). unfold f. cbn [fst snd fle fmul NumR fabs] in *.
      fold (F NumR). change (Num.F NumR) with R.
      assert (0 <= rs k * Rabs (at_ m k j)) by (apply Rmult_le_pos; [apply Rlt_le, Hrs; lia|apply Rabs_pos]).
      destruct (Rle_bool_spec l (rs k * Rabs (at_ m k j))) as [E|E].
      + split; [cbn [fst]; lra|]. split; [cbn [snd]; lia|]. split; [|right; reflexivity].
        intros i Hi. cbn [fst]. destruct (Nat.eq_dec i k) as [->|]; [lra|]. eapply Rle_trans; [apply P3; lia|exact E].
      + split; [cbn [fst]; lra|]. split; [cbn [snd]; lia|]. split; cbn [fst snd].
        * intros i Hi. destruct (Nat.eq_dec i k) as [->|]; [lra|]. apply P3; lia.
        * destruct P4 as [[-> P4]|P4]; [lra|]. right. exact P4. }
  cbv zeta. revert H. generalize (fold_left f (seq j (n - j)) (fZ NumR 0, j)). intros [l a] H. cbn [snd].
  destruct H as (P1 & P2 & P3 & P4). cbn [fst snd] in *. split; [exact P2|].
  intros E i Hi. destruct P4 as [[P4 _]|P4]; [lia|]. rewrite E, Rabs_R0, Rmult_0_r in P4. subst l.
  specialize (P3 i ltac:(lia)). assert (0 < rs i) by (apply Hrs; lia).
  destruct (Req_dec (at_ m i j) 0) as [|Hne]; [assumption|]. exfalso.
  assert (0 < Rabs (at_ m i j)) by (apply Rabs_pos_lt; exact Hne). nra.
Qed.

(** ** row exchange *)
Definition tr (a b i : nat) : nat := if Nat.eqb i a then b else if Nat.eqb i b then a else i.
Lemma swap_rows_spec (m : memR) r s : (r < n)%nat -> (s < n)%nat -> r <> s -> forall i c, (i < n)%nat -> (c < n)%nat ->
  at_ (swap_rowsN NumR n m r s) i c = at_ m (tr r s i) c.
Proof.
  intros Hr Hs Hrs.
  set (P := fun t (m' : memR) => forall i c, (i < n)%nat -> (c < n)%nat ->
    at_ m' i c = if Nat.ltb c t then at_ m (tr r s i) c else at_ m i c).
  assert (H : P (0 + n)%nat (swap_rowsN NumR n m r s)).
  { unfold swap_rowsN. apply (fold_seq_ind P).
    - intros i c _ _. reflexivity.
    - intros k m' Hk HP i c Hi Hc. cbn beta zeta.
      destruct (Nat.eq_dec c k) as [->|Hck].
      + rewrite (proj2 (Nat.ltb_lt k (S k))) by lia. unfold tr.
        destruct (Nat.eqb_spec i r) as [->|].
        * rewrite at_put_ne by lia. rewrite at_put_eq. rewrite HP by lia.
          rewrite (proj2 (Nat.ltb_ge k k)) by lia. reflexivity.
        * destruct (Nat.eqb_spec i s) as [->|].
          -- rewrite at_put_eq. rewrite HP by lia. rewrite (proj2 (Nat.ltb_ge k k)) by lia. reflexivity.
          -- rewrite !at_put_ne by lia. rewrite HP by lia. rewrite (proj2 (Nat.ltb_ge k k)) by lia. reflexivity.
      + rewrite !at_put_ne by lia. rewrite HP by lia.
        destruct (Nat.ltb_spec c k), (Nat.ltb_spec c (S k)); try reflexivity; lia. }
  intros i c Hi Hc. rewrite (H i c Hi Hc). cbn [plus]. rewrite (proj2 (Nat.ltb_lt c n)) by lia. reflexivity.
Qed.

(** ** division by the pivot *)
Lemma lu_divide_spec (m : memR) j : (j < n)%nat ->
  let piv := if Req_bool (at_ m j j) 0 then (IZR 1 / IZR 100000000000000000000) else at_ m j j in
  forall i c, (i < n)%nat -> (c < n)%nat ->
  at_ (lu_divide NumR n m j) i c =
    if andb (Nat.eqb i j) (Nat.eqb c j) then piv
    else if andb (Nat.ltb j i) (Nat.eqb c j) then at_ m i c * (1 / piv) else at_ m i c.
Proof.
  intros Hj piv.
  pose (m1 := (if Req_bool (at_ m j j) 0 then put_ m j j (IZR 1 / IZR 100000000000000000000) else m) : memR).
  change (lu_divide NumR n m j) with (fold_left (fun (m0 : mem NumR) i => put_ m0 i j (at_ m0 i j * (1 / at_ m1 j j))) (seq (j + 1) (n - (j + 1))) m1).
  assert (Hp : at_ m1 j j = piv).
  { unfold m1, piv. destruct (Req_bool (at_ m j j) 0); [apply at_put_eq|reflexivity]. }
  assert (Hm1 : forall i c, (i < n)%nat -> (c < n)%nat -> i <> j \/ c <> j -> at_ m1 i c = at_ m i c).
  { intros i c Hi Hc Hd. unfold m1. destruct (Req_bool (at_ m j j) 0); [apply at_put_ne; lia|reflexivity]. }
  rewrite Hp.
  set (P := fun t (m' : memR) => forall i c, (i < n)%nat -> (c < n)%nat ->
    at_ m' i c = if andb (Nat.ltb j i) (andb (Nat.ltb i t) (Nat.eqb c j)) then at_ m1 i c * (1 / piv) else at_ m1 i c).
  assert (H : P (j + 1 + (n - (j + 1)))%nat
    (fold_left (fun (m0 : mem NumR) i => put_ m0 i j (at_ m0 i j * (1 / piv))) (seq (j + 1) (n - (j + 1))) m1)).
  { apply (fold_seq_ind P).
    - intros i c Hi Hc. destruct (Nat.ltb_spec j i), (Nat.ltb_spec i (j + 1)); cbn [andb]; try reflexivity. lia.
    - intros k m' Hk HP i c Hi Hc. destruct (Nat.eq_dec c j) as [->|Hcj].
      + destruct (Nat.eq_dec i k) as [->|Hik].
        * rewrite at_put_eq. rewrite HP by lia. rewrite (proj2 (Nat.ltb_ge k k)), (proj2 (Nat.ltb_lt j k)), (proj2 (Nat.ltb_lt k (S k))), Nat.eqb_refl by lia.
          reflexivity.
        * rewrite at_put_ne by lia. rewrite HP by lia.
          destruct (Nat.ltb_spec i k), (Nat.ltb_spec i (S k)); try reflexivity; lia.
      + rewrite at_put_ne by lia. rewrite HP by lia. rewrite (proj2 (Nat.eqb_neq c j)) by lia. rewrite !andb_false_r. reflexivity. }
  replace (j + 1 + (n - (j + 1)))%nat with n in H by lia.
  intros i c Hi Hc. rewrite (H i c Hi Hc). rewrite (proj2 (Nat.ltb_lt i n)) by lia. cbn [andb].
  destruct (Nat.eqb_spec i j) as [->|Hij].
  - rewrite (proj2 (Nat.ltb_ge j j)) by lia. cbn [andb].
    destruct (Nat.eqb_spec c j) as [->|Hcj]; [exact Hp|apply Hm1; lia].
  - cbn [andb]. destruct (andb (Nat.ltb j i) (Nat.eqb c j)); rewrite Hm1 by lia; reflexivity.
Qed.

(** ** the decomposition *)
Definition eps : R := IZR 1 / IZR 100000000000000000000.
Lemma eps_pos : 0 < eps. Proof. unfold eps. lra. Qed.
(** factors stored in one matrix: unit lower and upper triangle *)
Definition Lf (m : memR) (i k : nat) : R := if Nat.ltb k i then at_ m i k else if Nat.eqb i k then 1 else 0.
Definition Uf (m : memR) (k c : nat) : R := if Nat.leb k c then at_ m k c else 0.
Definition bump (z : nat -> bool) (i c : nat) : R := if andb (Nat.eqb i c) (z c) then eps else 0.

Definition LUInv (A : matrix) (z : nat -> bool) (j : nat) (s : lu_state NumR) : Prop :=
  permutation n (lu_idx s) /\
  (forall i, (i < n)%nat -> 0 < (lu_scale s i : R)) /\
  (forall i c, (i < n)%nat -> (c < j)%nat -> A (lu_idx s i) c + bump z i c = sumR j (fun k => Lf (lu_m s) i k * Uf (lu_m s) k c)) /\
  (forall i c, (i < n)%nat -> (j <= c < n)%nat -> at_ (lu_m s) i c = A (lu_idx s i) c) /\
  (forall k, (k < j)%nat -> at_ (lu_m s) k k <> 0).

Lemma tr_invol a b i : tr a b (tr a b i) = i.
Proof.
  unfold tr. destruct (Nat.eqb_spec i a) as [->|Ha].
  - destruct (Nat.eqb_spec b a); [congruence|]. rewrite Nat.eqb_refl. reflexivity.
  - destruct (Nat.eqb_spec i b) as [->|Hb]; [rewrite Nat.eqb_refl; reflexivity|].
    destruct (Nat.eqb_spec i a); [congruence|]. destruct (Nat.eqb_spec i b); [congruence|]. reflexivity.
Qed.
Lemma tr_lt a b i : (a < n)%nat -> (b < n)%nat -> (i < n)%nat -> (tr a b i < n)%nat.
Proof. intros. unfold tr. destruct (Nat.eqb i a); [assumption|]. destruct (Nat.eqb i b); assumption. Qed.
Lemma tr_low a b j i : (j <= a)%nat -> (j <= b)%nat -> (i < j)%nat -> tr a b i = i.
Proof. intros. unfold tr. destruct (Nat.eqb_spec i a); [lia|]. destruct (Nat.eqb_spec i b); [lia|]. reflexivity. Qed.
Lemma tr_high a b j i : (j <= a)%nat -> (j <= b)%nat -> (j <= i)%nat -> (j <= tr a b i)%nat.
Proof. intros. unfold tr. destruct (Nat.eqb_spec i a); [lia|]. destruct (Nat.eqb_spec i b); lia. Qed.
Lemma tr_same a i : tr a a i = i.
Proof. unfold tr. destruct (Nat.eqb_spec i a); subst; reflexivity. Qed.

Lemma perm_tr idx a b : (a < n)%nat -> (b < n)%nat -> permutation n idx -> permutation n (fun i => idx (tr a b i)).
Proof.
  intros Ha Hb [P1 P2]. split; intros i.
  - intros Hi. apply P1, tr_lt; assumption.
  - intros j Hi Hj E. apply P2 in E; try (apply tr_lt; assumption).
    rewrite <- (tr_invol a b i), E. apply tr_invol.
Qed.
Lemma perm_ext idx idx' : (forall i, (i < n)%nat -> idx' i = idx i) -> permutation n idx -> permutation n idx'.
Proof.
  intros E [P1 P2]. split; intros i; [intros Hi; rewrite E by assumption; auto|].
  intros j Hi Hj. rewrite !E by assumption. auto.
Qed.

(** the state after the exchange *)
Lemma lu_swap_spec (s : lu_state NumR) j p : (j < n)%nat -> (p < n)%nat ->
  (forall i c, (i < n)%nat -> (c < n)%nat -> at_ (lu_m (lu_swap NumR n s j p)) i c = at_ (lu_m s) (tr p j i) c) /\
  (forall i, (i < n)%nat -> lu_idx (lu_swap NumR n s j p) i = lu_idx s (tr p j i)) /\
  ((forall i, (i < n)%nat -> 0 < (lu_scale s i : R)) -> forall i, (i < n)%nat -> 0 < (lu_scale (lu_swap NumR n s j p) i : R)) /\
  (lu_parity (lu_swap NumR n s j p) = (if Nat.eqb j p then lu_parity s else - (lu_parity s : R)) :> R).
Proof.
  intros Hj Hp. unfold lu_swap. destruct (Nat.eqb_spec j p) as [->|Hjp].
  - repeat split; auto; intros; rewrite ?tr_same; reflexivity.
  - cbn [lu_m lu_idx lu_scale lu_parity]. split; [|split; [|split]].
    + intros i c Hi Hc. apply swap_rows_spec; auto.
    + intros i Hi. unfold iput, tr. destruct (Nat.eqb_spec i p); [reflexivity|]. destruct (Nat.eqb_spec i j); reflexivity.
    + intros H i Hi. unfold put. destruct (Nat.eqb i p); apply H; assumption.
    + reflexivity.
Qed.

Lemma lu_step_inv (A : matrix) z j (s : lu_state NumR) : (j < n)%nat -> LUInv A z j s ->
  exists b : bool, LUInv A (fun c => if Nat.eqb c j then b else z c) (S j) (lu_stepN NumR n s j) /\
   (b = true -> forall i, (j <= i < n)%nat -> A (lu_idx s i) j = sumR j (fun k => at_ (lu_m s) i k * at_ (crout_columnN NumR n (lu_m s) j) k j)).
Proof.
  intros Hj (Iperm & Isc & Ilow & Ihigh & Ipiv).
  set (m1 := crout_columnN NumR n (lu_m s) j).
  destruct (crout_column_spec (lu_m s) j Hj) as [C1 C2]. fold m1 in C1, C2.
  destruct (find_pivot_spec m1 (lu_scale s) j Hj Isc) as [Hp Hz].
  set (p := find_pivotN NumR n m1 (lu_scale s) j) in *.
  set (s1 := LU m1 (lu_parity s) (lu_idx s) (lu_scale s)).
  destruct (lu_swap_spec s1 j p Hj ltac:(lia)) as (S1 & S2 & S3 & _).
  change (lu_stepN NumR n s j) with
    (LU (lu_divide NumR n (lu_m (lu_swap NumR n s1 j p)) j) (lu_parity (lu_swap NumR n s1 j p))
        (lu_idx (lu_swap NumR n s1 j p)) (lu_scale (lu_swap NumR n s1 j p))).
  set (s2 := lu_swap NumR n s1 j p) in *. unfold s1 in S1, S2, S3. cbn [lu_m lu_idx lu_scale] in S1, S2, S3.
  specialize (S3 Isc).
  pose proof (lu_divide_spec (lu_m s2) j Hj) as Dv. cbv zeta in Dv.
  set (m3 := lu_divide NumR n (lu_m s2) j) in *. clearbody m3 s2. clear s1.
  rewrite (S1 j j Hj Hj) in Dv. fold eps in Dv.
  assert (Ej : tr p j j = p) by (unfold tr; destruct (Nat.eqb_spec j p); [congruence|rewrite Nat.eqb_refl; reflexivity]).
  rewrite Ej in Dv.
  set (w := fun i => at_ m1 (tr p j i) j).
  exists (Req_bool (at_ m1 p j) 0). split.
  2:{ intros Hb i Hi. destruct (Req_bool_spec (at_ m1 p j) 0) as [E|]; [|discriminate].
      pose proof (Hz E i Hi) as Hw. rewrite C2 in Hw by lia. rewrite Ihigh in Hw by lia.
      rewrite Nat.min_r in Hw by lia. lra. }
  (* rows <= j, columns < j and the lower part are unchanged *)
  assert (M3 : forall i c, (i < n)%nat -> (c < n)%nat -> c <> j -> at_ m3 i c = at_ (lu_m s) (tr p j i) c).
  { intros i c Hi Hc Hne. rewrite Dv by assumption. rewrite (proj2 (Nat.eqb_neq c j)) by assumption. rewrite !andb_false_r.
    rewrite S1 by assumption. apply C1; auto. apply tr_lt; lia. }
  assert (M3j : forall i, (i < j)%nat -> at_ m3 i j = at_ m1 i j).
  { intros i Hi. rewrite Dv by lia. rewrite (proj2 (Nat.eqb_neq i j)), (proj2 (Nat.ltb_ge j i)) by lia. cbn [andb].
    rewrite S1 by lia. rewrite (tr_low p j j) by lia. reflexivity. }
  set (piv := if Req_bool (at_ m1 p j) 0 then eps else at_ m1 p j) in *.
  assert (Hpiv : piv <> 0).
  { unfold piv. destruct (Req_bool_spec (at_ m1 p j) 0) as [E|E]; [|exact E]. pose proof eps_pos. lra. }
  assert (M3d : at_ m3 j j = piv). { rewrite Dv by lia. rewrite Nat.eqb_refl. reflexivity. }
  assert (M3l : forall i, (j < i < n)%nat -> at_ m3 i j * piv = w i).
  { intros i Hi. rewrite Dv by lia. rewrite (proj2 (Nat.eqb_neq i j)), (proj2 (Nat.ltb_lt j i)), Nat.eqb_refl by lia. cbn [andb].
    rewrite S1 by lia. unfold w. field. exact Hpiv. }
  unfold LUInv. cbn [lu_m lu_idx lu_scale]. split; [|split; [|split; [|split]]].
  - apply (perm_ext (fun i => lu_idx s (tr p j i))); [exact S2|]. apply perm_tr; [lia|lia|exact Iperm].
  - exact S3.
  - intros i c Hi Hc. rewrite S2 by assumption. set (q := tr p j i).
    assert (Hq : (q < n)%nat) by (apply tr_lt; lia).
    assert (HL : forall k, (k < j)%nat -> Lf m3 i k = Lf (lu_m s) q k).
    { intros k Hk. unfold Lf. rewrite M3 by lia. fold q. destruct (lt_dec i j) as [Hij|Hij].
      - unfold q. rewrite (tr_low p j j) by lia. reflexivity.
      - assert (j <= q)%nat by (apply tr_high; lia).
        rewrite (proj2 (Nat.ltb_lt k i)), (proj2 (Nat.ltb_lt k q)) by lia. reflexivity. }
    destruct (Nat.eq_dec c j) as [->|Hcj].
    + (* the new column *)
      cbn [sumR]. unfold bump. rewrite Nat.eqb_refl.
      assert (HU : forall k, (k < j)%nat -> Uf m3 k j = at_ m1 k j).
      { intros k Hk. unfold Uf. rewrite (proj2 (Nat.leb_le k j)) by lia. apply M3j. exact Hk. }
      rewrite (sum_ext j _ (fun k => Lf (lu_m s) q k * at_ m1 k j)) by (intros k Hk; rewrite HL, HU by exact Hk; reflexivity).
      assert (HUj : Uf m3 j j = piv). { unfold Uf. rewrite Nat.leb_refl. exact M3d. }
      rewrite HUj. pose proof (C2 q Hq) as Cq. rewrite (Ihigh q j) in Cq by lia.
      destruct (lt_dec i j) as [Hij|Hij].
      * assert (q = i) by (apply (tr_low p j j); lia). 
        rewrite (proj2 (Nat.eqb_neq i j)) by lia. cbn [andb].
        assert (Lf m3 i j = 0) as ->. { unfold Lf. rewrite (proj2 (Nat.ltb_ge j i)), (proj2 (Nat.eqb_neq i j)) by lia. reflexivity. }
        rewrite Nat.min_l in Cq by lia. rewrite (sum_cut j (S q)).
        -- cbn [sumR]. rewrite (sum_ext q _ (fun k => at_ (lu_m s) q k * at_ m1 k j)).
           ++ unfold Lf at 1. rewrite (proj2 (Nat.ltb_ge q q)), Nat.eqb_refl by lia. lra.
           ++ intros k Hk. unfold Lf. rewrite (proj2 (Nat.ltb_lt k q)) by lia. reflexivity.
        -- lia.
        -- intros k Hk. unfold Lf. rewrite (proj2 (Nat.ltb_ge k q)), (proj2 (Nat.eqb_neq q k)) by lia. lra.
      * assert (Hjq : (j <= q)%nat) by (apply tr_high; lia). rewrite Nat.min_r in Cq by lia.
        rewrite (sum_ext j _ (fun k => at_ (lu_m s) q k * at_ m1 k j)).
        2:{ intros k Hk. unfold Lf. rewrite (proj2 (Nat.ltb_lt k q)) by lia. reflexivity. }
        destruct (Nat.eqb_spec i j) as [->|Hne].
        -- cbn [andb]. assert (q = p) by exact Ej. unfold Lf. rewrite (proj2 (Nat.ltb_ge j j)), Nat.eqb_refl by lia.
           subst q. unfold piv. rewrite H in *. destruct (Req_bool_spec (at_ m1 p j) 0) as [E|E]; lra.
        -- cbn [andb]. unfold Lf. rewrite (proj2 (Nat.ltb_lt j i)) by lia. rewrite M3l by lia. unfold w. fold q. lra.
    + (* an old column *)
      cbn [sumR]. assert (Hb : bump (fun c0 => if Nat.eqb c0 j then Req_bool (at_ m1 p j) 0 else z c0) i c = bump z q c).
      { unfold bump. rewrite (proj2 (Nat.eqb_neq c j)) by assumption.
        destruct (lt_dec i j) as [Hij|Hij].
        - unfold q. rewrite (tr_low p j j) by lia. reflexivity.
        - assert (j <= q)%nat by (apply tr_high; lia).
          rewrite (proj2 (Nat.eqb_neq i c)), (proj2 (Nat.eqb_neq q c)) by lia. reflexivity. }
      rewrite Hb, Ilow by lia.
      assert (Uf m3 j c = 0) as ->. { unfold Uf. rewrite (proj2 (Nat.leb_gt j c)) by lia. reflexivity. }
      rewrite Rmult_0_r, Rplus_0_r. apply sum_ext. intros k Hk. rewrite HL by exact Hk. f_equal.
      unfold Uf. destruct (Nat.leb_spec k c); [|reflexivity]. rewrite M3 by lia. rewrite (tr_low p j j) by lia. reflexivity.
  - intros i c Hi Hc. rewrite M3 by lia. rewrite S2 by assumption. apply Ihigh; [apply tr_lt; lia|lia].
  - intros k Hk. destruct (Nat.eq_dec k j) as [->|Hkj]; [rewrite M3d; exact Hpiv|].
    rewrite M3 by lia. rewrite (tr_low p j j) by lia. apply Ipiv. lia.
Qed.

Lemma perm_surj idx : permutation n idx -> forall r, (r < n)%nat -> exists i, (i < n)%nat /\ idx i = r.
Proof.
  intros [P1 P2] r Hr.
  assert (ND : NoDup (map idx (seq 0 n))).
  { assert (H : forall l, (forall x, In x l -> (x < n)%nat) -> NoDup l -> NoDup (map idx l)).
    { induction l as [|a l IH]; intros Hl Hn; cbn [map]; [constructor|]. inversion Hn; subst. constructor.
      - rewrite in_map_iff. intros (x & E & Hx). apply P2 in E; [subst; contradiction|apply Hl; right; exact Hx|apply Hl; left; reflexivity].
      - apply IH; [intros; apply Hl; right; assumption|assumption]. }
    apply H; [|apply seq_NoDup]. intros x Hx. apply in_seq in Hx. lia. }
  assert (HI : incl (seq 0 n) (map idx (seq 0 n))).
  { apply NoDup_length_incl; [exact ND|rewrite map_length; lia|].
    intros x Hx. rewrite in_map_iff in Hx. destruct Hx as (y & <- & Hy). apply in_seq in Hy. apply in_seq. specialize (P1 y). lia. }
  assert (Hin : In r (map idx (seq 0 n))) by (apply HI, in_seq; lia).
  rewrite in_map_iff in Hin. destruct Hin as (i & E & Hi). apply in_seq in Hi. exists i. split; [lia|exact E].
Qed.

Lemma tri_solve (U : nat -> nat -> R) : (forall k c, (c < k)%nat -> U k c = 0) -> forall j v,
  (forall k, (k < j)%nat -> U k k <> 0) ->
  exists y, forall k, (k < j)%nat -> sumR j (fun c => U k c * y c) = v k.
Proof.
  intros HU. induction j; intros v Hd; [exists (fun _ => 0); intros; lia|].
  destruct (IHj (fun k => v k - U k j * (v j / U j j))) as [y Hy]; [intros; apply Hd; lia|].
  exists (fun c => if Nat.eqb c j then v j / U j j else y c). intros k Hk. cbn [sumR]. rewrite Nat.eqb_refl.
  rewrite (sum_ext j _ (fun c => U k c * y c)).
  2:{ intros c Hc. rewrite (proj2 (Nat.eqb_neq c j)) by lia. reflexivity. }
  destruct (Nat.eq_dec k j) as [->|Hkj].
  - rewrite sum_zero; [field; apply Hd; lia|]. intros c Hc. rewrite HU by exact Hc. lra.
  - rewrite Hy by lia. lra.
Qed.

(** a zero pivot shows that the matrix is not regular *)
Lemma zero_pivot_singular (A : matrix) z j (s : lu_state NumR) : (j < n)%nat -> LUInv A z j s ->
  (forall c, (c < j)%nat -> z c = false) -> regular n A ->
  (forall i, (j <= i < n)%nat -> A (lu_idx s i) j = sumR j (fun k => at_ (lu_m s) i k * at_ (crout_columnN NumR n (lu_m s) j) k j)) ->
  False.
Proof.
  intros Hj (Iperm & Isc & Ilow & Ihigh & Ipiv) Hz Hreg Hcol.
  set (m := lu_m s) in *. set (m1 := crout_columnN NumR n m j) in *.
  destruct (crout_column_spec m j Hj) as [C1 C2]. fold m1 in C1, C2.
  set (v := fun k => at_ m1 k j).
  assert (HA : forall i, (i < n)%nat -> A (lu_idx s i) j = sumR j (fun k => Lf m i k * v k)).
  { intros i Hi. destruct (le_lt_dec j i) as [Hij|Hij].
    - rewrite Hcol by lia. apply sum_ext. intros k Hk. unfold Lf, v. rewrite (proj2 (Nat.ltb_lt k i)) by lia. reflexivity.
    - pose proof (C2 i Hi) as E. rewrite Nat.min_l in E by lia. rewrite (Ihigh i j) in E by lia.
      rewrite (sum_cut j (S i)).
      + cbn [sumR]. rewrite (sum_ext i _ (fun k => at_ m i k * at_ m1 k j)).
        * unfold Lf, v. rewrite (proj2 (Nat.ltb_ge i i)), Nat.eqb_refl by lia. lra.
        * intros k Hk. unfold Lf, v. rewrite (proj2 (Nat.ltb_lt k i)) by lia. reflexivity.
      + lia.
      + intros k Hk. unfold Lf. rewrite (proj2 (Nat.ltb_ge k i)), (proj2 (Nat.eqb_neq i k)) by lia. lra. }
  destruct (tri_solve (Uf m)) with (j := j) (v := v) as [y Hy].
  { intros k c Hc. unfold Uf. rewrite (proj2 (Nat.leb_gt k c)) by exact Hc. reflexivity. }
  { intros k Hk. unfold Uf. rewrite Nat.leb_refl. apply Ipiv. exact Hk. }
  set (x := fun c => if Nat.ltb c j then y c else if Nat.eqb c j then -1 else 0).
  assert (H0 : forall r, (r < n)%nat -> sumR n (fun k => A r k * x k) = 0).
  { intros r Hr. destruct (perm_surj _ Iperm r Hr) as (i & Hi & <-).
    rewrite (sum_cut n (S j)); [|lia|].
    2:{ intros k Hk. unfold x. rewrite (proj2 (Nat.ltb_ge k j)), (proj2 (Nat.eqb_neq k j)) by lia. lra. }
    cbn [sumR]. unfold x at 2. rewrite (proj2 (Nat.ltb_ge j j)), Nat.eqb_refl by lia.
    rewrite (sum_ext j _ (fun c => sumR j (fun k => Lf m i k * (Uf m k c * y c)))).
    - rewrite sum_swap. rewrite (sum_ext j _ (fun k => Lf m i k * v k)); [rewrite HA by exact Hi; lra|].
      intros k Hk. rewrite sum_scal, Hy by exact Hk. reflexivity.
    - intros c Hc. unfold x. rewrite (proj2 (Nat.ltb_lt c j)) by exact Hc.
      pose proof (Ilow i c Hi Hc) as E. unfold bump in E. rewrite (Hz c Hc), andb_false_r, Rplus_0_r in E. rewrite E.
      rewrite <- sum_scal_r. apply sum_ext. intros; lra. }
  pose proof (Hreg x H0 j Hj) as E. unfold x in E. rewrite (proj2 (Nat.ltb_ge j j)), Nat.eqb_refl in E by lia. lra.
Qed.

Lemma lu_loop (A : matrix) (s : lu_state NumR) z0 : LUInv A z0 0 s ->
  exists z, LUInv A z n (fold_left (lu_stepN NumR n) (seq 0 n) s) /\
  (regular n A -> forall c, (c < n)%nat -> z c = false).
Proof.
  intros H0.
  pose (P := fun j s => exists z, LUInv A z j s /\ (regular n A -> forall c, (c < j)%nat -> z c = false)).
  change (P (0 + n)%nat (fold_left (lu_stepN NumR n) (seq 0 n) s)). apply (fold_seq_ind P).
  - exists z0. split; [exact H0|intros; lia].
  - intros j s' Hj (z & HI & Hz). destruct (lu_step_inv A z j s' ltac:(lia) HI) as (b & HI' & Hb).
    exists (fun c => if Nat.eqb c j then b else z c). split; [exact HI'|].
    intros Hr c Hc. destruct (Nat.eqb_spec c j) as [->|]; [|apply Hz; [exact Hr|lia]].
    destruct b; [|reflexivity]. exfalso. apply (zero_pivot_singular A z j s'); [lia|exact HI|exact (Hz Hr)|exact Hr|exact (Hb eq_refl)].
Qed.

(** ** row scales *)
Lemma fmaxN_R (x y : R) : fmaxN NumR x y = Rmax x y.
Proof.
  unfold fmaxN. cbn [flt feq NumR]. destruct (Rlt_bool_spec x y).
  - rewrite Rmax_right; lra.
  - rewrite Req_bool_true by reflexivity. rewrite Rmax_left; lra.
Qed.
Lemma row_largest_spec (m : memR) i : let l : R := row_largestN NumR n m i in
  0 <= l /\ (forall j, (j <= n)%nat -> Rabs (at_ m i j) <= l) /\
  (l = 0 <-> forall j, (j <= n)%nat -> at_ m i j = 0).
Proof.
  unfold row_largestN. set (f := fun (largest : F NumR) j => _).
  pose (P := fun t (l : R) => 0 <= l /\ (forall j, (j < t)%nat -> Rabs (at_ m i j) <= l) /\
     (l = 0 \/ exists j, (j < t)%nat /\ l = Rabs (at_ m i j))).
  assert (H : P (0 + S n)%nat (fold_left f (seq 0 (S n)) (fZ NumR 0))).
  { apply (fold_seq_ind P).
    - split; [cbn; lra|]. split; [intros; lia|left; reflexivity].
    - intros k l Hk (P1 & P2 & P3). unfold f. rewrite fmaxN_R. change (fabs NumR) with Rabs.
      pose proof (Rmax_l (Rabs (at_ m i k)) l). pose proof (Rmax_r (Rabs (at_ m i k)) l).
      split; [|split].
      + eapply Rle_trans; eauto.
      + intros j Hj. destruct (Nat.eq_dec j k) as [->|]; [assumption|]. eapply Rle_trans; [apply P2; lia|assumption].
      + destruct (Rle_dec l (Rabs (at_ m i k))).
        * right. exists k. split; [lia|]. rewrite Rmax_left; auto.
        * rewrite Rmax_right by lra. destruct P3 as [->|(j & Hj & ->)]; [left; reflexivity|right; exists j; split; [lia|reflexivity]]. }
  cbv zeta. revert H. generalize (fold_left f (seq 0 (S n)) (fZ NumR 0)). intros l (P1 & P2 & P3).
  change (F NumR) with R in l. split; [exact P1|]. split; [intros; apply P2; lia|]. split.
  - intros -> j Hj. specialize (P2 j ltac:(lia)). pose proof (Rabs_pos (at_ m i j)).
    destruct (Req_dec (at_ m i j) 0) as [|Hn]; [assumption|]. apply Rabs_pos_lt in Hn. lra.
  - intros Hall. destruct P3 as [|(j & Hj & ->)]; [assumption|]. rewrite Hall by lia. apply Rabs_R0.
Qed.
Lemma row_scales_spec (m : memR) : forall rows (rs : memR),
  (row_scalesN NumR n m rows rs = None <-> exists i, In i rows /\ forall j, (j <= n)%nat -> at_ m i j = 0) /\
  (forall rs' : memR, row_scalesN NumR n m rows rs = Some rs' ->
     forall i, (In i rows \/ 0 < rs i) -> 0 < rs' i).
Proof.
  induction rows as [|i rows IH]; intros rs; cbn [row_scalesN].
  - split; [split; [discriminate|intros (i & [] & _)]|]. intros rs' E. injection E as <-. intros i [[]|]; assumption.
  - destruct (row_largest_spec m i) as (L1 & L2 & L3). change (feq NumR) with Req_bool. change (fZ NumR 0) with (0 : R).
    set (l := row_largestN NumR n m i) in *. change (F NumR) with R in l.
    destruct (Req_bool_spec l 0) as [E|E].
    + split; [|discriminate]. split; [intros _|reflexivity]. exists i. split; [left; reflexivity|apply L3; exact E].
    + destruct (IH (put NumR rs i (fdiv NumR (fZ NumR 1) l))) as [I1 I2]. split.
      * rewrite I1. split; intros (k & Hk & Hz); exists k; (split; [|exact Hz]).
        -- right; exact Hk.
        -- destruct Hk as [<-|Hk]; [|exact Hk]. exfalso. apply E, L3, Hz.
      * intros rs' H k Hk. apply (I2 rs' H). unfold put. destruct (Nat.eqb_spec k i) as [->|Hki].
        -- right. cbn [fdiv fZ NumR]. apply Rdiv_lt_0_compat; lra.
        -- destruct Hk as [[->|Hk]|Hk]; [congruence|left; exact Hk|right; exact Hk].
Qed.
(** reported singular exactly when a row is zero together with the element stored behind it *)
Lemma decompose_singular_iff (m junk : memR) :
  fst (LUDecomposeN NumR n m junk) = true <->
  exists i, (i < n)%nat /\ forall j, (j <= n)%nat -> at_ m i j = 0.
Proof.
  unfold LUDecomposeN. destruct (row_scales_spec m (seq 0 n) junk) as [H _].
  destruct (row_scalesN NumR n m (seq 0 n) junk) as [rs|].
  - split; [discriminate|]. intros (i & Hi & Hz). destruct H as [_ H]. discriminate H. exists i. split; [apply in_seq; lia|exact Hz].
  - split; [intros _|reflexivity]. destruct (proj1 H eq_refl) as (i & Hi & Hz). apply in_seq in Hi. exists i. split; [lia|exact Hz].
Qed.

Lemma decompose_spec (m junk : memR) s : LUDecomposeN NumR n m junk = (false, s) ->
  exists z, LUInv (stored n m) z n s /\ (regular n (stored n m) -> forall c, (c < n)%nat -> z c = false).
Proof.
  unfold LUDecomposeN. destruct (row_scales_spec m (seq 0 n) junk) as [_ H].
  destruct (row_scalesN NumR n m (seq 0 n) junk) as [rs|]; [|discriminate].
  intros E. injection E as <-. apply lu_loop with (z0 := fun _ => false).
  split; [split; cbn; auto|]. split; [|split; [|split]]; cbn [lu_m lu_idx lu_scale].
  - intros i Hi. apply (H rs eq_refl). left. apply in_seq. lia.
  - intros; lia.
  - intros; reflexivity.
  - intros; lia.
Qed.
Lemma product_assoc a b c i j : product n (product n a b) c i j = product n a (product n b c) i j.
Proof.
  unfold product. rewrite (sum_ext n _ (fun k => sumR n (fun q => a i q * b q k * c k j))).
  - rewrite sum_swap. apply sum_ext. intros q _. rewrite <- sum_scal. apply sum_ext. intros; lra.
  - intros k _. rewrite <- sum_scal_r. reflexivity.
Qed.
Lemma unit_r j f : (j < n)%nat -> sumR n (fun k => f k * unit_matrix k j) = f j.
Proof.
  intros Hj. rewrite (sum_one n j) by (try assumption; intros k _ Hk; unfold unit_matrix; rewrite (proj2 (Nat.eqb_neq k j)) by exact Hk; lra).
  unfold unit_matrix. rewrite Nat.eqb_refl. lra.
Qed.
Lemma unit_l i f : (i < n)%nat -> sumR n (fun k => unit_matrix i k * f k) = f i.
Proof.
  intros Hi. rewrite (sum_one n i) by (try assumption; intros k _ Hk; unfold unit_matrix; rewrite (proj2 (Nat.eqb_neq i k)) by auto; lra).
  unfold unit_matrix. rewrite Nat.eqb_refl. lra.
Qed.
Lemma invertible_regular A : invertible n A -> regular n A.
Proof.
  intros (B & _ & H) x Hx k Hk.
  rewrite <- (unit_l k x Hk).
  rewrite (sum_ext n _ (fun c => sumR n (fun i => B k i * (A i c * x c)))).
  - rewrite sum_swap. apply sum_zero. intros i Hi. rewrite sum_scal, Hx by exact Hi. lra.
  - intros c Hc. rewrite <- (H k c Hk Hc). unfold product. rewrite <- sum_scal_r. apply sum_ext. intros; lra.
Qed.
Lemma invertible_row A i : invertible n A -> (i < n)%nat -> ~ (forall j, (j < n)%nat -> A i j = 0).
Proof.
  intros (B & H & _) Hi Hz. pose proof (H i i Hi Hi) as E. unfold product, unit_matrix in E. rewrite Nat.eqb_refl in E.
  rewrite sum_zero in E; [lra|]. intros k Hk. rewrite Hz by exact Hk. lra.
Qed.
Lemma invertible_not_reported (m junk : memR) : invertible n (stored n m) -> fst (LUDecomposeN NumR n m junk) = false.
Proof.
  intros Hr. apply not_true_is_false. rewrite decompose_singular_iff. intros (i & Hi & Hz).
  apply (invertible_row _ i Hr Hi). intros j Hj. apply Hz. lia.
Qed.

(** what was decomposed: the rows in the order idx, plus eps where the pivot was zero *)
Definition perturbed (A : matrix) (idx : nat -> nat) (z : nat -> bool) (B : matrix) : Prop :=
  forall i c, (i < n)%nat -> (c < n)%nat -> B (idx i) c = A (idx i) c + bump z i c.

(** ** LUSolve *)
Lemma put_eq (m : memR) k v : put NumR m k v k = v.
Proof. unfold put. rewrite Nat.eqb_refl. reflexivity. Qed.
Lemma put_ne (m : memR) k v i : i <> k -> put NumR m k v i = m i.
Proof. intros H. unfold put. rewrite (proj2 (Nat.eqb_neq i k)) by exact H. reflexivity. Qed.

Lemma solve_spec (lu b tmp : memR) idx : permutation n idx -> (forall k, (k < n)%nat -> at_ lu k k <> 0) ->
  let x : memR := LUSolveN NumR n lu idx b tmp in
  exists y, (forall i, (i < n)%nat -> sumR n (fun k => Lf lu i k * y k) = b (idx i)) /\
            (forall k, (k < n)%nat -> sumR n (fun c => Uf lu k c * x c) = y k).
Proof.
  intros [P1 P2] Hd x.
  set (t1 := fold_left (fwd_step NumR n lu idx b) (seq 0 n) tmp).
  (* forward *)
  assert (Hf : forall i, (i < n)%nat -> sumR n (fun k => Lf lu i k * t1 (idx k)) = b (idx i)).
  { pose (P := fun t (m : memR) => forall i, (i < t)%nat -> sumR (S i) (fun k => Lf lu i k * m (idx k)) = b (idx i)).
    assert (H : P (0 + n)%nat t1).
    { apply (fold_seq_ind P); [intros i Hi; lia|].
      intros k m Hk HP i Hi. unfold fwd_step. cbn [fadd fmul fsub fZ NumR].
      rewrite (fold_sum0 (fun j => at_ lu k j * m (idx j))).
      assert (Hne : forall q, (q < k)%nat -> idx q <> idx k) by (intros q Hq E; apply P2 in E; lia).
      destruct (Nat.eq_dec i k) as [->|Hik].
      - cbn [sumR]. rewrite put_eq. unfold Lf at 2. rewrite (proj2 (Nat.ltb_ge k k)), Nat.eqb_refl by lia.
        rewrite (sum_ext k _ (fun j => at_ lu k j * m (idx j))); [lra|].
        intros q Hq. rewrite put_ne by (apply Hne; exact Hq). unfold Lf. rewrite (proj2 (Nat.ltb_lt q k)) by exact Hq. reflexivity.
      - rewrite <- (HP i) by lia. apply sum_ext. intros q Hq. rewrite put_ne by (apply Hne; lia). reflexivity. }
    intros i Hi. rewrite <- (H i Hi). rewrite (sum_cut n (S i)); [reflexivity|lia|].
    intros k Hk. unfold Lf. rewrite (proj2 (Nat.ltb_ge k i)), (proj2 (Nat.eqb_neq i k)) by lia. lra. }
  exists (fun k => t1 (idx k)). split; [exact Hf|].
  pose (Q := fun t (m : memR) => (forall i, (i < t)%nat -> m (idx i) = t1 (idx i)) /\
     forall k, (t <= k < n)%nat -> sumR n (fun c => Uf lu k c * m (idx c)) = t1 (idx k)).
  assert (H : Q 0%nat (fold_left (bwd_step NumR n lu idx) (rev (seq 0 n)) t1)).
  { apply (fold_down_ind Q); [split; [reflexivity|intros; lia]|].
    intros k m Hk (Q1 & Q2). unfold bwd_step. cbn [fadd fmul fsub fdiv fZ NumR].
    rewrite (fold_sum (fun j => at_ lu k j * m (idx j))).
    assert (Hne : forall q, (q < n)%nat -> q <> k -> idx q <> idx k) by (intros q Hq Hqk E; apply P2 in E; lia).
    split.
    - intros i Hi. rewrite put_ne by (apply Hne; lia). apply Q1. lia.
    - intros i Hi. destruct (Nat.eq_dec i k) as [->|Hik].
      + rewrite (sum_split n k) by lia. rewrite put_eq. rewrite sum_zero.
        2:{ intros c Hc. unfold Uf. rewrite (proj2 (Nat.leb_gt k c)) by lia. lra. }
        unfold Uf at 1. rewrite Nat.leb_refl. rewrite Q1 by lia.
        rewrite (sum_ext (n - S k) _ (fun t => at_ lu k (k + 1 + t)%nat * m (idx (k + 1 + t)%nat))).
        * replace (n - (k + 1))%nat with (n - S k)%nat by lia. field. apply Hd. lia.
        * intros c Hc. rewrite put_ne by (apply Hne; lia). unfold Uf. rewrite (proj2 (Nat.leb_le k (S k + c))) by lia.
          replace (S k + c)%nat with (k + 1 + c)%nat by lia. reflexivity.
      + rewrite <- (Q2 i) by lia. apply sum_ext. intros c Hc.
        destruct (Nat.eq_dec c k) as [->|Hck].
        * unfold Uf. rewrite (proj2 (Nat.leb_gt i k)) by lia. lra.
        * rewrite put_ne by (apply Hne; assumption). reflexivity. }
  destruct H as [_ H]. intros k Hk. rewrite <- H by lia. reflexivity.
Qed.

(** the solution solves the system of the decomposed matrix *)
Lemma solve_ok (A : matrix) z (s : lu_state NumR) (b tmp : memR) : LUInv A z n s ->
  let x : memR := LUSolveN NumR n (lu_m s) (lu_idx s) b tmp in
  forall B, perturbed A (lu_idx s) z B -> forall r, (r < n)%nat -> sumR n (fun c => B r c * x c) = b r.
Proof.
  intros (Iperm & _ & Ilow & _ & Ipiv) x B HB r Hr.
  destruct (solve_spec (lu_m s) b tmp (lu_idx s) Iperm Ipiv) as (y & Hy & Hx). fold x in Hx.
  destruct (perm_surj _ Iperm r Hr) as (i & Hi & <-). rewrite <- Hy by exact Hi.
  rewrite (sum_ext n _ (fun c => sumR n (fun k => Lf (lu_m s) i k * (Uf (lu_m s) k c * x c)))).
  - rewrite sum_swap. apply sum_ext. intros k Hk. rewrite sum_scal, Hx by exact Hk. reflexivity.
  - intros c Hc. rewrite HB, Ilow by assumption. rewrite <- sum_scal_r. apply sum_ext. intros; lra.
Qed.

(** ** Invert *)
Lemma columns_spec (X : nat -> memR) (out : memR) :
  let r := fold_left (fun out j => fold_left (fun out i => put_ out i j (X j i)) (seq 0 n) out) (seq 0 n) out in
  forall i j, (i < n)%nat -> (j < n)%nat -> at_ r i j = X j i.
Proof.
  intros r.
  pose (P := fun t (m : memR) => forall i j, (i < n)%nat -> (j < t)%nat -> (j < n)%nat -> at_ m i j = X j i).
  assert (H : P (0 + n)%nat r).
  { apply (fold_seq_ind P); [intros i j _ Hj; lia|].
    intros q m Hq HP.
    pose (Q := fun t (m' : memR) => (forall i, (i < t)%nat -> (i < n)%nat -> at_ m' i q = X q i) /\
       (forall i j, (i < n)%nat -> (j < n)%nat -> j <> q -> at_ m' i j = at_ m i j)).
    assert (HQ : Q (0 + n)%nat (fold_left (fun out i => put_ out i q (X q i)) (seq 0 n) m)).
    { apply (fold_seq_ind Q); [split; [intros; lia|reflexivity]|].
      intros k m' Hk [Q1 Q2]. split.
      - intros i Hi Hi'. destruct (Nat.eq_dec i k) as [->|]; [apply at_put_eq|]. rewrite at_put_ne by lia. apply Q1; lia.
      - intros i j Hi Hj Hne. rewrite at_put_ne by lia. apply Q2; assumption. }
    destruct HQ as [Q1 Q2]. intros i j Hi Hj Hj'. destruct (Nat.eq_dec j q) as [->|Hne]; [apply Q1; lia|].
    rewrite Q2 by assumption. apply HP; lia. }
  intros i j Hi Hj. apply H; lia.
Qed.

Lemma invert_cases (m out junk tmp : memR) :
  (fst (LUDecomposeN NumR n m junk) = true /\ InvertN NumR n m out junk tmp = (false, out)) \/
  (fst (LUDecomposeN NumR n m junk) = false /\ fst (InvertN NumR n m out junk tmp) = true /\
   exists z idx, permutation n idx /\ (regular n (stored n m) -> forall c, (c < n)%nat -> z c = false) /\
   forall B, perturbed (stored n m) idx z B ->
     same_matrix n (product n B (stored n (snd (InvertN NumR n m out junk tmp)))) unit_matrix).
Proof.
  unfold InvertN. destruct (LUDecomposeN NumR n m junk) as [b s] eqn:E. cbn [fst].
  destruct b; [left; split; reflexivity|right]. split; [reflexivity|]. split; [reflexivity|].
  destruct (decompose_spec m junk s E) as (z & HI & Hz). exists z, (lu_idx s). split; [exact (proj1 HI)|]. split; [exact Hz|].
  intros B HB i j Hi Hj. cbn [snd]. unfold product, stored.
  rewrite (sum_ext n _ (fun k => B i k * LUSolveN NumR n (lu_m s) (lu_idx s) (put NumR (fun _ => fZ NumR 0) j (fZ NumR 1)) tmp k)).
  - rewrite (solve_ok (stored n m) z s _ tmp HI B HB i Hi). unfold put, unit_matrix. reflexivity.
  - intros k Hk. f_equal.
    apply (columns_spec (fun j => LUSolveN NumR n (lu_m s) (lu_idx s) (put NumR (fun _ => fZ NumR 0) j (fZ NumR 1)) tmp) out k j Hk Hj).
Qed.

Lemma right_inverse_left A X : regular n A -> same_matrix n (product n A X) unit_matrix -> inverse_of n A X.
Proof.
  intros Hr H. split; [exact H|]. intros i j Hi Hj.
  assert (E : product n X A i j - unit_matrix i j = 0); [|lra].
  apply (Hr (fun i => product n X A i j - unit_matrix i j)); [|exact Hi].
  intros q Hq. rewrite (sum_ext n _ (fun k => A q k * product n X A k j + (-1) * (A q k * unit_matrix k j))) by (intros; lra).
  rewrite sum_add, sum_scal. rewrite (unit_r j (fun k => A q k) Hj).
  assert (E : sumR n (fun k => A q k * product n X A k j) = A q j); [|rewrite E; lra].
  change (product n A (product n X A) q j = A q j). rewrite <- product_assoc. unfold product at 1.
  rewrite (sum_ext n _ (fun k => unit_matrix q k * A k j)); [apply (unit_l q (fun k => A k j) Hq)|].
  intros k Hk. rewrite (H q k Hq Hk). reflexivity.
Qed.
Lemma invert_ok (m out junk tmp : memR) : invertible n (stored n m) ->
  fst (InvertN NumR n m out junk tmp) = true /\ inverse_of n (stored n m) (stored n (snd (InvertN NumR n m out junk tmp))).
Proof.
  intros Hi. pose proof (invertible_regular _ Hi) as Hr. destruct (invert_cases m out junk tmp) as [[H _]|(_ & H1 & z & idx & Hp & Hz & H2)].
  - rewrite invertible_not_reported in H by exact Hi. discriminate.
  - split; [exact H1|]. apply right_inverse_left; [exact Hr|]. apply H2.
    intros i c Hi' Hc. unfold bump. rewrite (Hz Hr c Hc), andb_false_r. lra.
Qed.
End N.
