(** Matrix inversion on actual doubles computes what it computes on rounded reals, as long as the pivots are not tiny *)
From Verif Require Import Base Num M_Linalg M_Helper M_Alignment P_AlignState P_Round P_Helper2 P_LinIEEE P_LinIEEE2 P_LinIEEE3 P_LinIEEE4 P_LinIEEE5 P_LinIEEE6 P_AlignIEEE P_NumCorr P_Finite P_LstFinite.
From Coq Require Import Reals Lra Lia Floats.SpecFloat.
From Flocq Require Import Core IEEE754.BinarySingleNaN.
Open Scope R_scope.

(** ** Operations, with the exponents computed *)
Lemma A_add n m a b x y : mb n a x -> mb m b y -> (0 <= Z.max n m <= 900)%Z -> mb (Z.max n m + 1) (fadd NumSF a b) (fadd NumB x y).
Proof. intros A B H. apply mb_fadd; [lia| |]; (eapply mb_weaken; [|eassumption]); lia. Qed.
Lemma A_sub n m a b x y : mb n a x -> mb m b y -> (0 <= Z.max n m <= 900)%Z -> mb (Z.max n m + 1) (fsub NumSF a b) (fsub NumB x y).
Proof. intros A B H. apply mb_fsub; [lia| |]; (eapply mb_weaken; [|eassumption]); lia. Qed.
Lemma A_mul n m a b x y : mb n a x -> mb m b y -> (0 <= n + m <= 900)%Z -> mb (n + m) (fmul NumSF a b) (fmul NumB x y).
Proof. intros A B H. apply mb_fmul; assumption. Qed.
Lemma A_0 : mb 0 (fZ NumSF 0) (fZ NumB 0). Proof. apply mb_int; lia. Qed.
Lemma A_1 : mb 0 (fZ NumSF 1) (fZ NumB 1). Proof. apply mb_int; lia. Qed.
(** division by a number that is not tiny *)
Definition low (y : R) : Prop := bpow radix2 (-80) <= Rabs y.
Lemma A_div n m a b x y : mb n a x -> mb m b y -> low y -> (0 <= n + 80 <= 900)%Z -> mb (n + 80) (fdiv NumSF a b) (fdiv NumB x y).
Proof. intros A [B _] L H. replace (n + 80)%Z with (n - (-80))%Z by lia. apply mb_div; [lia|exact A|exact B|exact L]. Qed.
Lemma A_abs n a x : mb n a x -> mb n (fabs NumSF a) (fabs NumB x).
Proof. intros [M B]. split; [apply means_abs; exact M|]. cbn [fabs NumB]. rewrite Rabs_Rabsolu. exact B. Qed.
Lemma A_le n m a b x y : mb n a x -> mb m b y -> fle NumSF a b = fle NumB x y.
Proof. intros [A _] [B _]. exact (means_le a b x y A B). Qed.
Lemma A_lt n m a b x y : mb n a x -> mb m b y -> flt NumSF a b = flt NumB x y.
Proof. intros [A _] [B _]. exact (means_lt a b x y A B). Qed.
Lemma A_eq n m a b x y : mb n a x -> mb m b y -> feq NumSF a b = feq NumB x y.
Proof. intros [A _] [B _]. exact (means_eq a b x y A B). Qed.
Ltac grow := lazymatch goal with
  | |- mb _ (fadd NumSF _ _) _ => eapply A_add; [grow|grow|lia]
  | |- mb _ (fsub NumSF _ _) _ => eapply A_sub; [grow|grow|lia]
  | |- mb _ (fmul NumSF _ _) _ => eapply A_mul; [grow|grow|lia]
  | |- mb _ (fdiv NumSF _ _) _ => eapply A_div; [grow|grow|first [assumption|idtac]|lia]
  | |- mb _ (fabs NumSF _) _ => eapply A_abs; grow
  | |- mb _ (fZ NumSF 0) _ => exact A_0
  | |- mb _ (fZ NumSF 1) _ => exact A_1
  | |- _ => eassumption
  end.
Ltac within := eapply mb_weaken; [|grow]; lia.

(** ** Matrices and vectors, entry by entry *)
Notation SMat := (@Mat NumSF).
Notation SVec := (@Vec NumSF).
Inductive relm (n : Z) : mat NumSF -> matB -> Prop :=
  RelM a b c d e f g h i a' b' c' d' e' f' g' h' i' : mb n a a' -> mb n b b' -> mb n c c' -> mb n d d' -> mb n e e' -> mb n f f' -> mb n g g' -> mb n h h' -> mb n i i' ->
    relm n (SMat a b c d e f g h i) (BMat a' b' c' d' e' f' g' h' i').
Inductive relv (n : Z) : vec NumSF -> vec NumB -> Prop :=
  RelV a b c a' b' c' : mb n a a' -> mb n b b' -> mb n c c' -> relv n (SVec a b c) (BVec a' b' c').
Lemma relm_get n (a : mat NumSF) (b : matB) i j : relm n a b -> mb n (mget a i j) (mget b i j).
Proof. intros []. destruct i as [|[|i]], j as [|[|j]]; assumption. Qed.
Lemma relm_set n (a : mat NumSF) (b : matB) i j v w : relm n a b -> mb n v w -> relm n (mset a i j v) (mset b i j w).
Proof. intros []. intros. destruct i as [|[|i]], j as [|[|j]]; constructor; assumption. Qed.
Lemma relm_weaken n m a b : (n <= m)%Z -> relm n a b -> relm m a b.
Proof. intros H []. constructor; (eapply mb_weaken; [exact H|assumption]). Qed.
Lemma relv_get n (a : vec NumSF) (b : vec NumB) i : relv n a b -> mb n (vget a i) (vget b i).
Proof. intros []. destruct i as [|[|i]]; assumption. Qed.
Lemma relv_set n (a : vec NumSF) (b : vec NumB) i v w : relv n a b -> mb n v w -> relv n (vset a i v) (vset b i w).
Proof. intros []. intros. destruct i as [|[|i]]; constructor; assumption. Qed.
Lemma relm_mat n (a : mat NumSF) (b : matB) : (forall i j, (i < 3)%nat -> (j < 3)%nat -> mb n (mget a i j) (mget b i j)) -> relm n a b.
Proof.
  intros H. destruct a, b. constructor;
    [exact (H 0 0 ltac:(lia) ltac:(lia))%nat|exact (H 0 1 ltac:(lia) ltac:(lia))%nat|exact (H 0 2 ltac:(lia) ltac:(lia))%nat
    |exact (H 1 0 ltac:(lia) ltac:(lia))%nat|exact (H 1 1 ltac:(lia) ltac:(lia))%nat|exact (H 1 2 ltac:(lia) ltac:(lia))%nat
    |exact (H 2 0 ltac:(lia) ltac:(lia))%nat|exact (H 2 1 ltac:(lia) ltac:(lia))%nat|exact (H 2 2 ltac:(lia) ltac:(lia))%nat].
Qed.

(** ** One pass of the decomposition *)
Definition pre (N : Num) (st : mat N * idx3 * vec N) (j : nat) : mat N * idx3 * vec N :=
  let '(a, idx, row_scale) := st in
  let a := crout_column N a j in
  let argmax := find_pivot N a row_scale j in
  if Nat.eqb j argmax then (a, idx, row_scale)
  else (swap_rows N a argmax j, (let ij := iget idx j in iset (iset idx j (iget idx argmax)) argmax ij), vset row_scale argmax (vget row_scale j)).
Definition post (N : Num) (a : mat N) (j : nat) : mat N :=
  let a := if feq N (mget a j j) (fZ N 0) then mset a j j (fq N 1 100000000000000000000) else a in
  let pivot_inv := fdiv N (fZ N 1) (mget a j j) in
  fold_left (fun a i => mset a i j (fmul N (mget a i j) pivot_inv)) (seq (j + 1) (3 - (j + 1))) a.
Lemma lu_step_eq N st j : lu_step N st j = let '(a, idx, rs) := pre N st j in (post N a j, idx, rs).
Proof. destruct st as [[a idx] rs]. unfold lu_step, pre. destruct (Nat.eqb j (find_pivot N (crout_column N a j) rs j)); reflexivity. Qed.

Lemma pivot_agrees n m a b rs rs' j : (0 <= n)%Z -> (0 <= m)%Z -> (n + m <= 900)%Z -> relm n a b -> relv m rs rs' -> find_pivot NumSF a rs j = find_pivot NumB b rs' j.
Proof.
  intros Hn Hm Hs HA HR. unfold find_pivot.
  assert (I : mb (m + n) (fZ NumSF 0) (fZ NumB 0)) by (eapply mb_weaken; [|exact A_0]; lia).
  assert (G : forall l (s : spec_float) (s' : R) arg, mb (m + n) s s' ->
    snd (fold_left (fun '(largest, argmax) i => let this_elem := fmul NumSF (vget rs i) (fabs NumSF (mget a i j)) in if fle NumSF largest this_elem then (this_elem, i) else (largest, argmax)) l (s, arg)) =
    snd (fold_left (fun '(largest, argmax) i => let this_elem := fmul NumB (vget rs' i) (fabs NumB (mget b i j)) in if fle NumB largest this_elem then (this_elem, i) else (largest, argmax)) l (s', arg))).
  { intros l. induction l as [|i l IH]; intros s s' arg Hss; [reflexivity|]. cbn [fold_left]. cbv zeta.
    assert (T : mb (m + n) (fmul NumSF (vget rs i) (fabs NumSF (mget a i j))) (fmul NumB (vget rs' i) (fabs NumB (mget b i j)))).
    { apply A_mul; [apply relv_get; exact HR|apply A_abs, relm_get; exact HA|lia]. }
    rewrite (A_le _ _ _ _ _ _ Hss T). destruct (fle NumB s' _); apply IH; assumption. }
  apply G. exact I.
Qed.
Lemma swap_agrees n a b r s : relm n a b -> relm n (swap_rows NumSF a r s) (swap_rows NumB b r s).
Proof. intros H. unfold swap_rows. cbn [seq fold_left]. repeat first [apply relm_get | apply relm_set | assumption]. Qed.
Definition relst (n m : Z) (s : mat NumSF * idx3 * vec NumSF) (t : matB * idx3 * vec NumB) : Prop :=
  relm n (fst (fst s)) (fst (fst t)) /\ snd (fst s) = snd (fst t) /\ relv m (snd s) (snd t).
Lemma pre_agrees n m k s t j : (0 <= n)%Z -> (0 <= m)%Z -> (n + m <= 900)%Z -> relst k m s t -> relm n (crout_column NumSF (fst (fst s)) j) (crout_column NumB (fst (fst t)) j) ->
  relst n m (pre NumSF s j) (pre NumB t j).
Proof.
  intros Hn Hm Hs (HA & HI & HR) HC. destruct s as [[a idx] rs], t as [[b idx'] rs']. cbn [fst snd] in *. subst idx'. unfold pre.
  rewrite (pivot_agrees n m _ _ rs rs' j Hn Hm Hs HC HR). destruct (Nat.eqb j _).
  - split; [exact HC|]. split; [reflexivity|exact HR].
  - split; [apply swap_agrees; exact HC|]. split; [reflexivity|]. apply relv_set; [exact HR|apply relv_get; exact HR].
Qed.
(** the columns *)
Ltac column := unfold crout_column, crout_elem; cbn [seq fold_left Nat.sub mset mget m00 m01 m02 m10 m11 m12 m20 m21 m22]; constructor; within.
Lemma column0 a b : relm 20 a b -> relm 21 (crout_column NumSF a 0) (crout_column NumB b 0).
Proof. intros []. column. Qed.
Lemma column1 a b : relm 101 a b -> relm 205 (crout_column NumSF a 1) (crout_column NumB b 1).
Proof. intros []. column. Qed.
Lemma column2 a b : relm 285 a b -> relm 860 (crout_column NumSF a 2) (crout_column NumB b 2).
Proof. intros []. column. Qed.
(** scaling by the pivot *)
Lemma tiny_pivot n : (0 <= n)%Z -> mb n (fq NumSF 1 100000000000000000000) (fq NumB 1 100000000000000000000) /\ low (fq NumB 1 100000000000000000000).
Proof.
  intros Hn.
  assert (F20 : is_b64 (IZR 100000000000000000000)).
  { replace (IZR 100000000000000000000) with (F2R (Float radix2 95367431640625 20)) by (unfold F2R; cbn [Fnum Fexp]; simpl bpow; rewrite <- mult_IZR; reflexivity).
    apply generic_format_FLT. eapply FLT_spec; [reflexivity| |]; cbn [Fnum Fexp]; [change (Zpower_nat radix2) with (Zpower_nat 2)|]; [|lia]. change (radix2 ^ 53)%Z with (2 ^ 53)%Z. lia. }
  assert (M : means (fZ NumSF 100000000000000000000) (IZR 100000000000000000000)).
  { rewrite <- (P_NumCorr.b64_id _ F20). apply means_Z. rewrite (P_NumCorr.b64_id _ F20), Rabs_pos_eq by lra. apply Rlt_trans with (bpow radix2 70); [|apply bpow_lt; lia]. simpl bpow. lra. }
  assert (K : Rabs (b64 (1 / IZR 100000000000000000000)) <= bpow radix2 n).
  { apply round_bound; [lia|]. rewrite Rabs_pos_eq by lra. apply Rle_trans with (bpow radix2 0); [simpl bpow; lra|apply bpow_le; exact Hn]. }
  split; [split|].
  - cbn [fq NumSF NumB]. change (sf_ofZ (Zpos 100000000000000000000)) with (fZ NumSF 100000000000000000000). apply means_div; [apply means_int; lia|exact M|lra|].
    eapply Rle_lt_trans; [apply (round_bound 0); [lia|]|apply bpow_lt; lia]. rewrite Rabs_pos_eq by lra. simpl bpow. lra.
  - exact K.
  - unfold low. cbn [fq NumB]. rewrite Rabs_pos_eq; [|rewrite <- (b64_of_int 0) by lia; apply b64_mono; simpl; lra].
    apply round_ge_generic; [apply FLT_exp_valid; apply Hprec|apply valid_rnd_N|apply generic_format_FLT_bpow; [apply Hprec|lia]|]. simpl bpow. lra.
Qed.
Lemma post_agrees0 a b : relm 21 a b -> low (mget (post NumB b 0) 0 0) -> relm 101 (post NumSF a 0) (post NumB b 0).
Proof.
  intros H L. unfold post in *. pose proof (relm_get 21 _ _ 0 0 H) as P. rewrite (A_eq _ _ _ _ _ _ P A_0). destruct (tiny_pivot 21 ltac:(lia)) as [T TL]. 
  assert (H' : relm 21 (if feq NumB (mget b 0 0) (fZ NumB 0) then mset a 0 0 (fq NumSF 1 100000000000000000000) else a) (if feq NumB (mget b 0 0) (fZ NumB 0) then mset b 0 0 (fq NumB 1 100000000000000000000) else b)).
  { destruct (feq NumB _ _); [apply relm_set; assumption|exact H]. }
  revert L H'. generalize (if feq NumB (mget b 0 0) (fZ NumB 0) then mset a 0 0 (fq NumSF 1 100000000000000000000) else a), (if feq NumB (mget b 0 0) (fZ NumB 0) then mset b 0 0 (fq NumB 1 100000000000000000000) else b).
  clear. intros a b L H. destruct H. cbn [seq fold_left Nat.sub Nat.add mset mget m00 m01 m02 m10 m11 m12 m20 m21 m22] in *. constructor; within.
Qed.
Lemma post_agrees1 a b : relm 205 a b -> low (mget (post NumB b 1) 1 1) -> relm 285 (post NumSF a 1) (post NumB b 1).
Proof.
  intros H L. unfold post in *. pose proof (relm_get 205 _ _ 1 1 H) as P. rewrite (A_eq _ _ _ _ _ _ P A_0). destruct (tiny_pivot 205 ltac:(lia)) as [T TL]. 
  assert (H' : relm 205 (if feq NumB (mget b 1 1) (fZ NumB 0) then mset a 1 1 (fq NumSF 1 100000000000000000000) else a) (if feq NumB (mget b 1 1) (fZ NumB 0) then mset b 1 1 (fq NumB 1 100000000000000000000) else b)).
  { destruct (feq NumB _ _); [apply relm_set; assumption|exact H]. }
  revert L H'. generalize (if feq NumB (mget b 1 1) (fZ NumB 0) then mset a 1 1 (fq NumSF 1 100000000000000000000) else a), (if feq NumB (mget b 1 1) (fZ NumB 0) then mset b 1 1 (fq NumB 1 100000000000000000000) else b).
  clear. intros a b L H. destruct H. cbn [seq fold_left Nat.sub Nat.add mset mget m00 m01 m02 m10 m11 m12 m20 m21 m22] in *. constructor; within.
Qed.
Lemma post_agrees2 a b : relm 860 a b -> relm 860 (post NumSF a 2) (post NumB b 2).
Proof.
  intros H. unfold post in *. pose proof (relm_get 860 _ _ 2 2 H) as P. rewrite (A_eq _ _ _ _ _ _ P A_0). destruct (tiny_pivot 860 ltac:(lia)) as [T TL].
  cbn [seq fold_left Nat.sub Nat.add]. destruct (feq NumB _ _); [apply relm_set; assumption|exact H].
Qed.

(** ** What later passes leave alone *)
Lemma pivot_in N (a : mat N) rs j : In (find_pivot N a rs j) (j :: seq j (3 - j)).
Proof.
  unfold find_pivot. assert (G : forall l (s : F N) arg, In (snd (fold_left (fun '(largest, argmax) i => let this_elem := fmul N (vget rs i) (fabs N (mget a i j)) in if fle N largest this_elem then (this_elem, i) else (largest, argmax)) l (s, arg))) (arg :: l)).
  { induction l as [|i l IH]; intros s arg; [left; reflexivity|]. cbn [fold_left]. cbv zeta. destruct (fle N s _).
    - right. apply IH.
    - destruct (IH s arg) as [E|E]; [left; exact E|right; right; exact E]. }
  apply G.
Qed.
Lemma step1_keeps (a : matB) idx rs : mget (fst (fst (lu_step NumB (a, idx, rs) 1))) 0 0 = mget a 0 0.
Proof.
  rewrite lu_step_eq. unfold pre. set (b := crout_column NumB a 1). assert (Eb : mget b 0 0 = mget a 0 0) by (destruct a; reflexivity). rewrite <- Eb. clearbody b. clear a Eb.
  assert (P : forall c : matB, mget (post NumB c 1) 0 0 = mget c 0 0).
  { intros c. unfold post. assert (E : mget (if feq NumB (mget c 1 1) (fZ NumB 0) then mset c 1 1 (fq NumB 1 100000000000000000000) else c) 0 0 = mget c 0 0) by (destruct (feq NumB _ _); destruct c; reflexivity).
    rewrite <- E. generalize (if feq NumB (mget c 1 1) (fZ NumB 0) then mset c 1 1 (fq NumB 1 100000000000000000000) else c). intros d. destruct d. reflexivity. }
  destruct (pivot_in NumB b rs 1) as [E|[E|[E|[]]]]; rewrite <- E; cbn [Nat.eqb fst]; rewrite P; destruct b; reflexivity.
Qed.
Lemma step2_keeps (a : matB) idx rs : mget (fst (fst (lu_step NumB (a, idx, rs) 2))) 0 0 = mget a 0 0 /\ mget (fst (fst (lu_step NumB (a, idx, rs) 2))) 1 1 = mget a 1 1.
Proof.
  rewrite lu_step_eq. unfold pre. set (b := crout_column NumB a 2). assert (Eb : mget b 0 0 = mget a 0 0 /\ mget b 1 1 = mget a 1 1) by (destruct a; split; reflexivity). destruct Eb as [E0 E1]. rewrite <- E0, <- E1. clearbody b. clear a E0 E1.
  assert (E : find_pivot NumB b rs 2 = 2%nat) by (destruct (pivot_in NumB b rs 2) as [E|[E|[]]]; symmetry; exact E). rewrite E. cbn [Nat.eqb fst]. unfold post. cbn [seq fold_left Nat.sub Nat.add].
  destruct (feq NumB _ _); destruct b; split; reflexivity.
Qed.

(** ** The row sizes *)
Lemma A_max n a b x y : mb n a x -> mb n b y -> mb n (fmax NumSF a b) (fmax NumB x y).
Proof.
  intros A B. unfold fmax. rewrite (A_lt _ _ _ _ _ _ A B), (A_eq _ _ _ _ _ _ A A). destruct (flt NumB x y); [exact B|]. destruct (feq NumB x x); assumption.
Qed.
Lemma largest_agrees n a b x (X : R) i : (0 <= n)%Z -> relm n a b -> mb n x X -> exists l (l' : R), row_largest NumSF (Ok x) a i = Ok l /\ row_largest NumB (Ok X) b i = Ok l' /\ mb n l l'.
Proof.
  intros Hn H Mx. unfold row_largest.
  assert (I0 : mb n (fZ NumSF 0) (fZ NumB 0)) by (eapply mb_weaken; [exact Hn|exact A_0]).
  destruct i as [|[|i]]; cbn [bind]; eexists _, _; (split; [reflexivity|]); (split; [reflexivity|]); repeat first [apply A_max | apply A_abs | apply relm_get | assumption].
Qed.

(** ** Decomposition *)
Theorem LU_agrees a b x (X : R) lu' idx : relm 20 a b -> mb 20 x X -> (forall i, (i < 3)%nat -> bpow radix2 (-60) <= size_of X b i) ->
  LUDecompose NumB (Ok X) b = Ok (Some (lu', idx)) -> low (mget lu' 0 0) -> low (mget lu' 1 1) ->
  exists lu, LUDecompose NumSF (Ok x) a = Ok (Some (lu, idx)) /\ relm 860 lu lu'.
Proof.
  intros H Mx HS E L0 L1. unfold LUDecompose in *.
  destruct (largest_agrees 20 a b x X 0 ltac:(lia) H Mx) as (l0 & l0' & E0 & E0' & M0).
  destruct (largest_agrees 20 a b x X 1 ltac:(lia) H Mx) as (l1 & l1' & E1 & E1' & M1).
  destruct (largest_agrees 20 a b x X 2 ltac:(lia) H Mx) as (l2 & l2' & E2 & E2' & M2).
  assert (HL : forall i l, (i < 3)%nat -> row_largest NumB (Ok X) b i = Ok l -> l = size_of X b i) by (intros i l _ K; rewrite row_largest_B in K; injection K as <-; reflexivity).
  pose proof (HS 0%nat ltac:(lia)) as B0. pose proof (HS 1%nat ltac:(lia)) as B1. pose proof (HS 2%nat ltac:(lia)) as B2.
  rewrite <- (HL 0%nat l0' ltac:(lia) E0') in B0. rewrite <- (HL 1%nat l1' ltac:(lia) E1') in B1. rewrite <- (HL 2%nat l2' ltac:(lia) E2') in B2. clear HL HS.
  rewrite E0', E1', E2' in E. rewrite E0, E1, E2. cbn [bind] in *. 
  rewrite (A_eq _ _ _ _ _ _ M0 A_0), (A_eq _ _ _ _ _ _ M1 A_0), (A_eq _ _ _ _ _ _ M2 A_0).
  destruct (feq NumB l0' (fZ NumB 0)); [discriminate|]. destruct (feq NumB l1' (fZ NumB 0)); [discriminate|]. destruct (feq NumB l2' (fZ NumB 0)); [discriminate|].
  clear E0 E1 E2 E0' E1' E2'.
  assert (W : forall l : R, bpow radix2 (-60) <= l -> low l).
  { intros l Hl. unfold low. pose proof (bpow_gt_0 radix2 (-60)). rewrite Rabs_pos_eq by lra. eapply Rle_trans; [|exact Hl]. apply bpow_le. lia. }
  apply W in B0, B1, B2.
  assert (RS : relv 80 (SVec (fdiv NumSF (fZ NumSF 1) l0) (fdiv NumSF (fZ NumSF 1) l1) (fdiv NumSF (fZ NumSF 1) l2)) (BVec (fdiv NumB (fZ NumB 1) l0') (fdiv NumB (fZ NumB 1) l1') (fdiv NumB (fZ NumB 1) l2'))).
  { constructor; within. }
  revert RS E. generalize (SVec (fdiv NumSF (fZ NumSF 1) l0) (fdiv NumSF (fZ NumSF 1) l1) (fdiv NumSF (fZ NumSF 1) l2)), (BVec (fdiv NumB (fZ NumB 1) l0') (fdiv NumB (fZ NumB 1) l1') (fdiv NumB (fZ NumB 1) l2')).
  clear - H L0 L1. intros rs rs' RS E. cbn [seq fold_left] in *.
  assert (R0 : relst 20 80 (a, (0, 1, 2)%nat, rs) (b, (0, 1, 2)%nat, rs')) by (split; [exact H|split; [reflexivity|exact RS]]).
  set (s0 := (a, (0, 1, 2)%nat, rs)) in *. set (t0 := (b, (0, 1, 2)%nat, rs')) in *. clearbody s0 t0. clear H RS.
  destruct (lu_step NumB t0 0) as [[b1 i1] r1] eqn:T1. destruct (lu_step NumB (b1, i1, r1) 1) as [[b2 i2] r2] eqn:T2. destruct (lu_step NumB (b2, i2, r2) 2) as [[b3 i3] r3] eqn:T3.
  injection E as <- <-.
  destruct (step2_keeps b2 i2 r2) as [K0 K1]. rewrite T3 in K0, K1. cbn [fst] in K0, K1. rewrite K0 in L0. rewrite K1 in L1.
  pose proof (step1_keeps b1 i1 r1) as K2. rewrite T2 in K2. cbn [fst] in K2. rewrite K2 in L0. clear K0 K1 K2.
  rewrite lu_step_eq in T1, T2, T3. rewrite (lu_step_eq NumSF s0).
  assert (P0 := pre_agrees 21 80 20 s0 t0 0 ltac:(lia) ltac:(lia) ltac:(lia) R0 (column0 _ _ (proj1 R0))).
  destruct (pre NumB t0 0) as [[c1 j1] q1]. injection T1 as <- <- <-. destruct (pre NumSF s0 0) as [[d1 k1] p1]. destruct P0 as (P0 & PI & PR). cbn [fst snd] in P0, PI, PR. subst k1.
  apply post_agrees0 in P0; [|exact L0].
  assert (R1 : relst 101 80 (post NumSF d1 0, j1, p1) (post NumB c1 0, j1, q1)) by (split; [exact P0|split; [reflexivity|exact PR]]).
  set (s1 := (post NumSF d1 0, j1, p1)) in *. set (t1 := (post NumB c1 0, j1, q1)) in *. clearbody s1 t1. rewrite (lu_step_eq NumSF s1).
  assert (P1 := pre_agrees 205 80 101 s1 t1 1 ltac:(lia) ltac:(lia) ltac:(lia) R1 (column1 _ _ (proj1 R1))). clear P0 PR R1.
  destruct (pre NumB t1 1) as [[c2 j2] q2]. injection T2 as <- <- <-. destruct (pre NumSF s1 1) as [[d2 k2] p2]. destruct P1 as (P1 & PI & PR). cbn [fst snd] in P1, PI, PR. subst k2.
  apply post_agrees1 in P1; [|exact L1].
  assert (R2 : relst 285 80 (post NumSF d2 1, j2, p2) (post NumB c2 1, j2, q2)) by (split; [exact P1|split; [reflexivity|exact PR]]).
  set (s2 := (post NumSF d2 1, j2, p2)) in *. set (t2 := (post NumB c2 1, j2, q2)) in *. clearbody s2 t2. rewrite (lu_step_eq NumSF s2).
  assert (P2 := pre_agrees 860 40 285 s2 t2 2).
  destruct (pre NumB t2 2) as [[c3 j3] q3] eqn:Q3. injection T3 as <- <- <-. destruct (pre NumSF s2 2) as [[d3 k3] p3] eqn:Q4.
  assert (P3 : relm 860 d3 c3 /\ k3 = j3).
  { clear P2. pose proof (column2 _ _ (proj1 R2)) as C. destruct R2 as (_ & RI & _). destruct s2 as [[a2 ia] ra], t2 as [[b2 ib] rb]. cbn [fst snd] in *. subst ib. unfold pre in Q3, Q4.
    assert (E : find_pivot NumB (crout_column NumB b2 2) rb 2 = 2%nat) by (destruct (pivot_in NumB (crout_column NumB b2 2) rb 2) as [E|[E|[]]]; symmetry; exact E).
    assert (E' : find_pivot NumSF (crout_column NumSF a2 2) ra 2 = 2%nat) by (destruct (pivot_in NumSF (crout_column NumSF a2 2) ra 2) as [E'|[E'|[]]]; symmetry; exact E').
    rewrite E in Q3. rewrite E' in Q4. cbn [Nat.eqb] in Q3, Q4. injection Q3 as <- <- <-. injection Q4 as <- <- <-. auto. }
  destruct P3 as [P3 ->]. eexists. split; [reflexivity|]. apply post_agrees2. exact P3.
Qed.

(** ** Solving *)
Lemma solve_agrees_lu u00 u01 u02 l1 u11 u12 l2 l21 u22 (u00' u01' u02' l1' u11' u12' l2' l21' u22' : R) idx (f : vec NumSF) (f' : vec NumB) : is_perm idx -> relv 0 f f' ->
  mb 23 u00 u00' -> mb 23 u01 u01' -> mb 23 u02 u02' -> mb 55 l1 l1' -> mb 23 u11 u11' -> mb 23 u12 u12' -> mb 55 l2 l2' -> mb 55 l21 l21' -> mb 23 u22 u22' ->
  low u00' -> low u11' -> low u22' ->
  relv 420 (LUSolve NumSF (SMat u00 u01 u02 l1 u11 u12 l2 l21 u22) idx f) (LUSolve NumB (BMat u00' u01' u02' l1' u11' u12' l2' l21' u22') idx f').
Proof.
  intros Hp [f0 f1 f2 g0 g1 g2 G0 G1 G2] H1 H2 H3 H4 H5 H6 H7 H8 H9 L0 L1 L2. unfold LUSolve.
  destruct Hp as [ -> |[ -> |[ -> |[ -> |[ -> | -> ]]]]];
    cbn [seq fold_left Nat.sub Nat.add iget iset vget vset v0 v1 v2 mget m00 m01 m02 m10 m11 m12 m20 m21 m22];
    constructor; within.
Qed.

(** ** Pivots from below *)
Lemma pivots_low S0 S1 S2 b00 b01 b02 b10 b11 b12 b20 b21 b22 k l1 u11 u12 l2 l21 u22 : 0 < S0 -> 0 < S1 -> 0 < S2 ->
  conditioned k S0 S1 S2 b00 b01 b02 b10 b11 b12 b20 b21 b22 -> 1 <= k -> 160 * w * k <= 1 ->
  factors S0 S1 S2 b00 b01 b02 b10 b11 b12 b20 b21 b22 l1 u11 u12 l2 l21 u22 ->
  S0 <= 4 * k * Rabs b00 /\ S1 <= 4 * k * Rabs u11 /\ S2 <= 4 * k * Rabs u22.
Proof.
  intros Q0 Q1 Q2 K K1 Hk [F1 F2 F3 _ _ _ D10 D11 D12 D20 D21 D22 P0 P1 P2]. pose proof w_small as W.
  (* a row that gives l * pivot up to small errors; the size is that of its own row, [T] that of the pivot's row *)
  assert (G : forall nn T S l u err, 1 <= nn -> 0 < T -> 0 < S -> Rabs l * T <= 1.01 * S -> Rabs err <= 11 * w * S * nn -> nn * S <= k * Rabs (l * u + err) -> T <= 4 * k * Rabs u).
  { intros nn T S l u err Hn HT HS Hl He H.
    assert (A : Rabs (l * u + err) <= Rabs l * Rabs u + 11 * w * S * nn) by (eapply Rle_trans; [apply Rabs_triang|]; rewrite Rabs_mult; lra).
    assert (A' : k * Rabs (l * u + err) <= k * (Rabs l * Rabs u + 11 * w * S * nn)) by (apply Rmult_le_compat_l; lra).
    assert (Sn : S <= S * nn) by (rewrite <- (Rmult_1_r S) at 1; apply Rmult_le_compat_l; lra).
    assert (B : k * (11 * w * S * nn) <= / 4 * (S * nn)).
    { replace (k * (11 * w * S * nn)) with (11 * w * k * (S * nn)) by ring. apply Rmult_le_compat_r; [lra|lra]. }
    rewrite Rmult_plus_distr_l in A'.
    assert (C : 3 / 4 * S <= k * (Rabs l * Rabs u)) by lra.
    assert (D : 3 / 4 * S * T <= k * (Rabs l * Rabs u) * T) by (apply Rmult_le_compat_r; lra).
    replace (k * (Rabs l * Rabs u) * T) with ((Rabs l * T) * (k * Rabs u)) in D by ring.
    assert (KU : 0 <= k * Rabs u) by (apply Rmult_le_pos; [lra|apply Rabs_pos]).
    assert (E : Rabs l * T * (k * Rabs u) <= 1.01 * S * (k * Rabs u)) by (apply Rmult_le_compat_r; assumption).
    apply Rmult_le_reg_l with S; [exact HS|]. replace (S * (4 * k * Rabs u)) with (4 * (S * (k * Rabs u))) by ring.
    assert (0 <= S * (k * Rabs u)) by (apply Rmult_le_pos; lra). lra. }
  assert (One : forall S, Rabs 1 * S <= 1.01 * S \/ S <= 0) by (intros S; rewrite Rabs_R1; destruct (Rle_or_lt S 0); [right|left]; lra).
  assert (E3 : forall d0 d1 d2 x y z S, 0 < S -> Rabs d0 <= 11 * w * S -> Rabs d1 <= 11 * w * S -> Rabs d2 <= 11 * w * S -> Rabs (- (d0 * x + d1 * y + d2 * z)) <= 11 * w * S * norm1 x y z).
  { intros d0 d1 d2 x y z S HS H0 H1 H2. rewrite Rabs_Ropp. eapply Rle_trans; [apply Rabs_triang|]. eapply Rle_trans; [apply Rplus_le_compat_r, Rabs_triang|].
    pose proof (Rabs_mul_le d0 x _ _ H0 (Rle_refl _)). pose proof (Rabs_mul_le d1 y _ _ H1 (Rle_refl _)). pose proof (Rabs_mul_le d2 z _ _ H2 (Rle_refl _)). unfold norm1. lra. }
  assert (W1 : 0 <= w * S1) by (apply Rmult_le_pos; lra). assert (W2 : 0 <= w * S2) by (apply Rmult_le_pos; lra). assert (W0 : 0 <= w * S0) by (apply Rmult_le_pos; lra).
  assert (Z : forall S, 0 < S -> Rabs 0 <= 11 * w * S) by (intros S HS; rewrite Rabs_R0; assert (0 <= w * S) by (apply Rmult_le_pos; lra); lra).
  assert (O : forall S, 0 < S -> Rabs 1 * S <= 1.01 * S) by (intros S HS; rewrite Rabs_R1; lra).
  split; [|split].
  - assert (N : norm1 1 0 0 = 1) by (unfold norm1; rewrite Rabs_R1, Rabs_R0; lra).
    destruct (K 1 0 0) as [H|[H|H]].
    + apply (G (norm1 1 0 0) S0 S0 1 b00 0); try lra; [apply O; lra|rewrite Rabs_R0, N; lra|]. replace (1 * b00 + 0) with (b00 * 1 + b01 * 0 + b02 * 0) by ring. exact H.
    + apply (G (norm1 1 0 0) S0 S1 l1 b00 (- ((l1 * b00 - b10) * 1 + 0 * 0 + 0 * 0))); try lra; [apply E3; try lra; apply Z; lra|].
      replace (l1 * b00 + - ((l1 * b00 - b10) * 1 + 0 * 0 + 0 * 0)) with (b10 * 1 + b11 * 0 + b12 * 0) by ring. exact H.
    + apply (G (norm1 1 0 0) S0 S2 l2 b00 (- ((l2 * b00 - b20) * 1 + 0 * 0 + 0 * 0))); try lra; [apply E3; try lra; apply Z; lra|].
      replace (l2 * b00 + - ((l2 * b00 - b20) * 1 + 0 * 0 + 0 * 0)) with (b20 * 1 + b21 * 0 + b22 * 0) by ring. exact H.
  - set (x := - b01 / b00). assert (Z0 : b00 * x + b01 * 1 + b02 * 0 = 0) by (unfold x; field; exact P0). clearbody x.
    assert (NN : 1 <= norm1 x 1 0) by (unfold norm1; rewrite Rabs_R1, Rabs_R0; pose proof (Rabs_pos x); lra).
    destruct (K x 1 0) as [H|[H|H]].
    + exfalso. rewrite Z0, Rabs_R0, Rmult_0_r in H. assert (0 < norm1 x 1 0 * S0) by (apply Rmult_lt_0_compat; lra). lra.
    + apply (G (norm1 x 1 0) S1 S1 1 u11 (- ((l1 * b00 - b10) * x + (l1 * b01 + u11 - b11) * 1 + 0 * 0))); try lra; [apply O; lra|apply E3; try lra; apply Z; lra|].
      replace (1 * u11 + - ((l1 * b00 - b10) * x + (l1 * b01 + u11 - b11) * 1 + 0 * 0)) with (b10 * x + b11 * 1 + b12 * 0 - l1 * (b00 * x + b01 * 1 + b02 * 0)) by ring. rewrite Z0, (Rmult_0_r l1), Rminus_0_r. exact H.
    + apply (G (norm1 x 1 0) S1 S2 l21 u11 (- ((l2 * b00 - b20) * x + (l2 * b01 + l21 * u11 - b21) * 1 + 0 * 0))); try lra; [apply E3; try lra; apply Z; lra|].
      replace (l21 * u11 + - ((l2 * b00 - b20) * x + (l2 * b01 + l21 * u11 - b21) * 1 + 0 * 0)) with (b20 * x + b21 * 1 + b22 * 0 - l2 * (b00 * x + b01 * 1 + b02 * 0)) by ring. rewrite Z0, (Rmult_0_r l2), Rminus_0_r. exact H.
  - set (y := - u12 / u11). set (x := - (b01 * y + b02) / b00).
    assert (Z0 : b00 * x + b01 * y + b02 * 1 = 0) by (unfold x; field; exact P0).
    assert (Z1 : u11 * y + u12 = 0) by (unfold y; field; exact P1). clearbody x y.
    assert (NN : 1 <= norm1 x y 1) by (unfold norm1; rewrite Rabs_R1; pose proof (Rabs_pos x); pose proof (Rabs_pos y); lra).
    destruct (K x y 1) as [H|[H|H]].
    + exfalso. rewrite Z0, Rabs_R0, Rmult_0_r in H. assert (0 < norm1 x y 1 * S0) by (apply Rmult_lt_0_compat; lra). lra.
    + assert (S1 <= 4 * k * Rabs 0); [|rewrite Rabs_R0 in *; lra].
      apply (G (norm1 x y 1) S1 S1 1 0 (- ((l1 * b00 - b10) * x + (l1 * b01 + u11 - b11) * y + (l1 * b02 + u12 - b12) * 1))); try lra; [apply O; lra|apply E3; lra|].
      replace (1 * 0 + - ((l1 * b00 - b10) * x + (l1 * b01 + u11 - b11) * y + (l1 * b02 + u12 - b12) * 1)) with (b10 * x + b11 * y + b12 * 1 - l1 * (b00 * x + b01 * y + b02 * 1) - (u11 * y + u12)) by ring.
      rewrite Z0, Z1, Rmult_0_r, !Rminus_0_r. exact H.
    + apply (G (norm1 x y 1) S2 S2 1 u22 (- ((l2 * b00 - b20) * x + (l2 * b01 + l21 * u11 - b21) * y + (l2 * b02 + l21 * u12 + u22 - b22) * 1))); try lra; [apply O; lra|apply E3; lra|].
      replace (1 * u22 + - ((l2 * b00 - b20) * x + (l2 * b01 + l21 * u11 - b21) * y + (l2 * b02 + l21 * u12 + u22 - b22) * 1)) with (b20 * x + b21 * y + b22 * 1 - l2 * (b00 * x + b01 * y + b02 * 1) - l21 * (u11 * y + u12)) by ring.
      rewrite Z0, Z1, !Rmult_0_r, !Rminus_0_r. exact H.
Qed.

(** ** Inversion, and the matrix of the correction *)
Lemma k_at_most k : 160 * w * k <= 1 -> k <= bpow radix2 52 / 160.
Proof.
  intros H. pose proof w_small as W. assert (E : w * bpow radix2 52 = 1) by (unfold w; rewrite <- bpow_plus; reflexivity).
  apply Rmult_le_reg_l with w; [lra|]. replace (w * (bpow radix2 52 / 160)) with (w * bpow radix2 52 / 160) by field. rewrite E. lra.
Qed.
Lemma low_of (S k u : R) : / 10000000000 <= S -> 1 <= k -> k <= bpow radix2 52 / 160 -> S <= 4 * k * Rabs u -> low u.
Proof.
  intros HS H1 Hk H. unfold low. pose proof (Rabs_pos u) as P.
  assert (4 * k * Rabs u <= 4 * (bpow radix2 52 / 160) * Rabs u) by (apply Rmult_le_compat_r; lra).
  apply Rmult_le_reg_l with (4 * (bpow radix2 52 / 160)); [simpl bpow; lra|]. simpl bpow in *. lra.
Qed.
Lemma mb_of n a x (B : R) : means a x -> Rabs x <= B -> B <= bpow radix2 n -> mb n a x.
Proof. intros M H1 H2. split; [exact M|lra]. Qed.
Lemma ratio_le l T S : / 10000000000 <= T -> S <= 1000000 -> Rabs l * T <= 1.01 * S -> Rabs l <= bpow radix2 55.
Proof.
  intros HT HS H. pose proof (Rabs_pos l) as P. assert (Rabs l * / 10000000000 <= Rabs l * T) by (apply Rmult_le_compat_l; lra). simpl bpow. lra.
Qed.
Theorem Invert_agrees (A : mat NumSF) (A' : matB) x (X k : R) : relm 20 A A' -> mb 20 x X -> all_b64 A' ->
  (forall i, (i < 3)%nat -> / 10000000000 <= size_of X A' i <= 1000000) -> well_conditioned k (size_of X A') A' -> 160 * w * k <= 1 ->
  exists Y Y', Invert NumSF (Ok x) A = Ok (Some Y) /\ Invert NumB (Ok X) A' = Ok (Some Y') /\ relm 420 Y Y'.
Proof.
  intros HA Mx FA HS K Hk.
  assert (SZ : forall i, (i < 3)%nat -> sz (size_of X A' i)).
  { intros i Hi. destruct (HS i Hi). unfold sz. simpl bpow. lra. }
  pose proof (k1 X A' k SZ K) as K1. pose proof (k_at_most k Hk) as K45.
  destruct (LUDecompose_B X A' FA k SZ K Hk) as (i0 & i1 & i2 & l1 & u11 & u12 & l2 & l21 & u22 & E & Hp & Hf).
  pose proof (cond_perm _ _ _ _ _ _ K Hp) as Kp. unfold cond_rows in Kp. unfold P_LinIEEE5.fact in Hf.
  assert (I : (i0 < 3 /\ i1 < 3 /\ i2 < 3)%nat) by (destruct Hp as [J|[J|[J|[J|[J|J]]]]]; injection J as -> -> ->; lia). destruct I as (I0 & I1 & I2).
  pose proof (HS i0 I0) as [A0 B0]. pose proof (HS i1 I1) as [A1 B1]. pose proof (HS i2 I2) as [A2 B2].
  destruct (pivots_low (size_of X A' i0) (size_of X A' i1) (size_of X A' i2) _ _ _ _ _ _ _ _ _ k _ _ _ _ _ _ ltac:(lra) ltac:(lra) ltac:(lra) Kp K1 Hk Hf) as (G0 & G1 & G2).
  apply (low_of _ k) in G0; [|assumption..]. apply (low_of _ k) in G1; [|assumption..]. apply (low_of _ k) in G2; [|assumption..].
  destruct (LU_agrees A A' x X _ _ HA Mx (fun i Hi => proj1 (SZ i Hi)) E G0 G1) as (lu & El & Rl).
  pose proof (size_bounds X A' i0 0 ltac:(lia)) as C0. pose proof (size_bounds X A' i0 1 ltac:(lia)) as C1. pose proof (size_bounds X A' i0 2 ltac:(lia)) as C2.
  destruct Hf as [F1 F2 F3 F4 F5 F6 _ _ _ _ _ _ _ _ _].
  apply ratio_le in F1; [|assumption..]. apply ratio_le in F2; [|assumption..]. apply ratio_le in F3; [|assumption..].
  unfold Invert. rewrite El. change (LUDecompose NumB (Ok X) A') with (LUDecompose NumB (@Ok R X) A'). rewrite E. cbn [bind].
  eexists _, _. split; [reflexivity|]. split; [reflexivity|].
  inversion Rl as [q1 q2 q3 q4 q5 q6 q7 q8 q9 ? ? ? ? ? ? ? ? ? [N1 _] [N2 _] [N3 _] [N4 _] [N5 _] [N6 _] [N7 _] [N8 _] [N9 _]]; subst.
  assert (RS : forall f f', relv 0 f f' -> relv 420 (LUSolve NumSF (SMat q1 q2 q3 q4 q5 q6 q7 q8 q9) (i0, i1, i2) f) (LUSolve NumB (BMat (mget A' i0 0) (mget A' i0 1) (mget A' i0 2) l1 u11 u12 l2 l21 u22) (i0, i1, i2) f')).
  { intros f f' Hff. apply solve_agrees_lu; try assumption.
    - apply (mb_of _ _ _ 1000000); [exact N1|eapply Rle_trans; [exact C0|exact B0]|simpl bpow; lra].
    - apply (mb_of _ _ _ 1000000); [exact N2|eapply Rle_trans; [exact C1|exact B0]|simpl bpow; lra].
    - apply (mb_of _ _ _ 1000000); [exact N3|eapply Rle_trans; [exact C2|exact B0]|simpl bpow; lra].
    - split; assumption.
    - apply (mb_of _ _ _ _ N5 F4). simpl bpow. lra.
    - apply (mb_of _ _ _ _ N6 F5). simpl bpow. lra.
    - split; assumption.
    - split; assumption.
    - apply (mb_of _ _ _ _ N9 F6). simpl bpow. lra. }
  pose proof A_0 as Z0. pose proof A_1 as Z1.
  pose proof (RS (SVec (fZ NumSF 1) (fZ NumSF 0) (fZ NumSF 0)) (BVec (fZ NumB 1) (fZ NumB 0) (fZ NumB 0)) ltac:(constructor; assumption)) as V0.
  pose proof (RS (SVec (fZ NumSF 0) (fZ NumSF 1) (fZ NumSF 0)) (BVec (fZ NumB 0) (fZ NumB 1) (fZ NumB 0)) ltac:(constructor; assumption)) as V1.
  pose proof (RS (SVec (fZ NumSF 0) (fZ NumSF 0) (fZ NumSF 1)) (BVec (fZ NumB 0) (fZ NumB 0) (fZ NumB 1)) ltac:(constructor; assumption)) as V2.
  constructor; [exact (relv_get _ _ _ 0 V0)|exact (relv_get _ _ _ 0 V1)|exact (relv_get _ _ _ 0 V2)|exact (relv_get _ _ _ 1 V0)|exact (relv_get _ _ _ 1 V1)|exact (relv_get _ _ _ 1 V2)
    |exact (relv_get _ _ _ 2 V0)|exact (relv_get _ _ _ 2 V1)|exact (relv_get _ _ _ 2 V2)].
Qed.
Theorem solution_agrees (A B : mat NumSF) (A' B' : matB) x (X k : R) : relm 20 A A' -> relm 20 B B' -> mb 20 x X -> all_b64 A' ->
  (forall i, (i < 3)%nat -> / 10000000000 <= size_of X A' i <= 1000000) -> well_conditioned k (size_of X A') A' -> 160 * w * k <= 1 ->
  relm 450 (solve NumSF x A B) (solve NumB X A' B').
Proof.
  intros HA HB Mx FA HS K Hk. destruct (Invert_agrees A A' x X k HA Mx FA HS K Hk) as (Y & Y' & E & E' & HY).
  unfold solve, solve_matrix. change (F NumSF) with spec_float in *. rewrite E. change (F NumB) with R. rewrite E'. cbn [bind].
  destruct HB, HY. unfold mmul, dot3. cbn [mget m00 m01 m02 m10 m11 m12 m20 m21 m22]. constructor; within.
Qed.
