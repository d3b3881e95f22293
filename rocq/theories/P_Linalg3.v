(** The general template at dim = 3 is the 3x3 model used by the alignment code, for every arithmetic. *)
From Verif Require Import Base Num M_Linalg M_LinalgN.
From Coq Require Import Arith.

Section T.
Context (N : Num).
Notation at3 := (at2 N 3).
Definition Rl (m : mem N) (a : mat N) : Prop := forall r c, (r < 3)%nat -> (c < 3)%nat -> at3 m r c = mget a r c.
Definition Rv (v : mem N) (w : vec N) : Prop := forall i, (i < 3)%nat -> v i = vget w i.
Definition Ri (p : nat -> nat) (q : idx3) : Prop := forall i, (i < 3)%nat -> p i = iget q i.

Ltac c3 H := match type of H with (?r < 3)%nat => destruct r as [|[|[|r]]]; [| | |exfalso; lia] end.
Lemma Rl_put m a r c v : (r < 3)%nat -> (c < 3)%nat -> Rl m a -> Rl (put2 N 3 m r c v) (mset a r c v).
Proof.
  intros Hr Hc H r' c' Hr' Hc'. specialize (H r' c' Hr' Hc'). revert H. destruct a.
  unfold at2, put2, put. c3 Hr; c3 Hc; c3 Hr'; c3 Hc'; cbn; intros H; try exact H; reflexivity.
Qed.
Lemma Rv_put v w i x : (i < 3)%nat -> Rv v w -> Rv (put N v i x) (vset w i x).
Proof. intros Hi H i' Hi'. specialize (H i' Hi'). revert H. destruct w. unfold put. c3 Hi; c3 Hi'; cbn; intros H; try exact H; reflexivity. Qed.
Lemma Ri_put p q i x : (i < 3)%nat -> Ri p q -> Ri (iput p i x) (iset q i x).
Proof. intros Hi H i' Hi'. specialize (H i' Hi'). revert H. destruct q as [[? ?] ?]. unfold iput. c3 Hi; c3 Hi'; cbn; intros H; try exact H; reflexivity. Qed.

Lemma fold_rel {A B} (Rel : A -> B -> Prop) (f : A -> nat -> A) (g : B -> nat -> B) (l : list nat) :
  (forall k a b, In k l -> Rel a b -> Rel (f a k) (g b k)) -> forall a b, Rel a b -> Rel (fold_left f l a) (fold_left g l b).
Proof.
  induction l as [|k l IH]; intros H a b Hab; cbn [fold_left]; [exact Hab|].
  apply IH; [intros; apply H; [right; assumption|assumption]|]. apply H; [left; reflexivity|exact Hab].
Qed.
Lemma fold_eq {A} (f g : A -> nat -> A) (l : list nat) : (forall k a, In k l -> f a k = g a k) -> forall a, fold_left f l a = fold_left g l a.
Proof. intros H a. apply (fold_rel eq); [|reflexivity]. intros k x y Hk ->. apply H, Hk. Qed.

Lemma Rl_crout m a i j b : (i < 3)%nat -> (j < 3)%nat -> (b <= 3)%nat -> Rl m a -> Rl (crout_elemN N 3 m i j b) (crout_elem N a i j b).
Proof.
  intros Hi Hj Hb H. unfold crout_elemN, crout_elem. cbv zeta. rewrite (H i j) by assumption.
  rewrite (fold_eq _ (fun s k => fadd N s (fmul N (mget a i k) (mget a k j)))).
  - apply Rl_put; assumption.
  - intros k s Hk. apply in_seq in Hk. rewrite !H by lia. reflexivity.
Qed.
Lemma Rl_column m a j : (j < 3)%nat -> Rl m a -> Rl (crout_columnN N 3 m j) (crout_column N a j).
Proof.
  intros Hj H. unfold crout_columnN, crout_column. cbv zeta. apply (fold_rel Rl).
  - intros k x y Hk. apply in_seq in Hk. apply Rl_crout; lia.
  - apply (fold_rel Rl); [|exact H]. intros k x y Hk. apply in_seq in Hk. apply Rl_crout; lia.
Qed.
Lemma pivot_eq m a rs w j : (j < 3)%nat -> Rl m a -> Rv rs w ->
  find_pivotN N 3 m rs j = find_pivot N a w j /\ (find_pivot N a w j < 3)%nat.
Proof.
  intros Hj H Hv. unfold find_pivotN, find_pivot. split.
  - f_equal. apply fold_eq. intros k [l p] Hk. apply in_seq in Hk. cbv zeta. rewrite (Hv k), (H k j) by lia. reflexivity.
  - assert (G : forall l s, (forall k, In k l -> (k < 3)%nat) -> (snd s < 3)%nat ->
      (snd (fold_left (fun '(largest, argmax) i => let this_elem := fmul N (vget w i) (fabs N (mget a i j)) in
          if fle N largest this_elem then (this_elem, i) else (largest, argmax)) l s) < 3)%nat).
    { induction l as [|k l IH]; intros [x p] Hl Hs; cbn [fold_left]; [exact Hs|].
      apply IH; [intros; apply Hl; right; assumption|]. cbv zeta. destruct (fle N x _); [apply Hl; left; reflexivity|exact Hs]. }
    apply G; [intros k Hk; apply in_seq in Hk; lia|exact Hj].
Qed.
Lemma Rl_swap m a r s : (r < 3)%nat -> (s < 3)%nat -> Rl m a -> Rl (swap_rowsN N 3 m r s) (swap_rows N a r s).
Proof.
  intros Hr Hs H. unfold swap_rowsN, swap_rows. apply (fold_rel Rl); [|exact H].
  intros k x y Hk Hxy. apply in_seq in Hk. cbv zeta. rewrite (Hxy r k), (Hxy s k) by lia.
  apply Rl_put; [lia|lia|]. apply Rl_put; [lia|lia|exact Hxy].
Qed.
Lemma Rl_divide m a j : (j < 3)%nat -> Rl m a ->
  Rl (lu_divide N 3 m j)
     (let a := if feq N (mget a j j) (fZ N 0) then mset a j j (fq N 1 100000000000000000000) else a in
      let pivot_inv := fdiv N (fZ N 1) (mget a j j) in
      fold_left (fun a i => mset a i j (fmul N (mget a i j) pivot_inv)) (seq (j + 1) (3 - (j + 1))) a).
Proof.
  intros Hj H. unfold lu_divide. cbv zeta. rewrite (H j j) by assumption.
  set (m1 := if feq N (mget a j j) (fZ N 0) then put2 N 3 m j j _ else m).
  set (a1 := if feq N (mget a j j) (fZ N 0) then mset a j j _ else a).
  assert (H1 : Rl m1 a1). { unfold m1, a1. destruct (feq N (mget a j j) (fZ N 0)); [apply Rl_put; assumption|exact H]. }
  rewrite (H1 j j) by assumption. apply (fold_rel Rl); [|exact H1].
  intros k x y Hk Hxy. apply in_seq in Hk. rewrite (Hxy k j) by lia. apply Rl_put; [lia|lia|exact Hxy].
Qed.

Definition Rs (s : lu_state N) (t : mat N * idx3 * vec N) : Prop :=
  let '(a, q, w) := t in Rl (lu_m s) a /\ Ri (lu_idx s) q /\ Rv (lu_scale s) w.
Lemma Rs_step s t j : (j < 3)%nat -> Rs s t -> Rs (lu_stepN N 3 s j) (lu_step N t j).
Proof.
  intros Hj. destruct t as [[a q] w]. intros (H1 & H2 & H3). unfold lu_stepN, lu_step.
  set (m1 := crout_columnN N 3 (lu_m s) j). set (a1 := crout_column N a j).
  assert (Hc : Rl m1 a1) by (apply Rl_column; assumption). clearbody m1 a1.
  destruct (pivot_eq m1 a1 (lu_scale s) w j Hj Hc H3) as [Ep Hp].
  cbv zeta. rewrite Ep. set (p := find_pivot N a1 w j) in *. clearbody p.
  unfold lu_swap. destruct (Nat.eqb j p).
  - cbn [lu_m lu_idx lu_scale lu_parity]. split; [|split; assumption]. apply (Rl_divide m1 a1 j Hj Hc).
  - cbn [lu_m lu_idx lu_scale lu_parity]. rewrite (H2 p), (H2 j), (H3 j) by assumption.
    split; [|split].
    + apply (Rl_divide _ _ j Hj). apply Rl_swap; assumption.
    + apply Ri_put; [assumption|]. apply Ri_put; assumption.
    + apply Rv_put; assumption.
Qed.

Definition small (q : idx3) : Prop := forall i, (i < 3)%nat -> (iget q i < 3)%nat.
Lemma small_step t j : (j < 3)%nat -> small (snd (fst t)) -> small (snd (fst (lu_step N t j))).
Proof.
  destruct t as [[a q] w]. cbn [fst snd]. intros Hj H. unfold lu_step. cbv zeta.
  assert (Hp : (find_pivot N (crout_column N a j) w j < 3)%nat).
  { apply (pivot_eq (fun k => mget (crout_column N a j) (k / 3) (k mod 3)) _ (fun i => vget w i) w j Hj).
    - intros r c Hr Hc. unfold at2. rewrite Nat.div_add_l, Nat.div_small, Nat.add_0_r by lia.
      rewrite Nat.add_comm, Nat.mod_add, Nat.mod_small by lia. reflexivity.
    - intros i _. reflexivity. }
  set (p := find_pivot N _ w j) in *. clearbody p. destruct (Nat.eqb j p); [exact H|].
  cbn [fst snd]. pose proof (H j Hj) as Q1. pose proof (H p Hp) as Q2. clear -Hj Hp Q1 Q2 H.
  assert (G : forall q i v, (i < 3)%nat -> (v < 3)%nat -> small q -> small (iset q i v)).
  { intros [[x y] z] i v Hi Hv Hs k Hk. specialize (Hs k Hk). revert Hs. c3 Hi; c3 Hk; cbn; intros; assumption. }
  apply G; [assumption|assumption|]. apply G; assumption.
Qed.

(** agreement of the results *)
Lemma largest_eq m a x i : (i < 3)%nat -> Rl m a -> m 9%nat = x -> row_largest N (Ok x) a i = Ok (row_largestN N 3 m i).
Proof.
  intros Hi H Hx. unfold row_largest, row_largestN. cbn [seq fold_left].
  assert (E : at3 m i 3 = match i with 0%nat => mget a 1 0 | 1%nat => mget a 2 0 | _ => x end).
  { c3 Hi; unfold at2; cbn [Nat.mul Nat.add]; [exact (H 1%nat 0%nat ltac:(lia) ltac:(lia))|exact (H 2%nat 0%nat ltac:(lia) ltac:(lia))|exact Hx]. }
  rewrite E, !(H i) by (assumption || lia). c3 Hi; reflexivity.
Qed.

Lemma solve_eq lu a idx q b c tmp : small q -> Rl lu a -> Ri idx q -> Rv b c ->
  (forall i j, (i < 3)%nat -> (j < 3)%nat -> iget q i = iget q j -> i = j) ->
  forall i, (i < 3)%nat -> LUSolveN N 3 lu idx b tmp i = vget (LUSolve N a q c) i.
Proof.
  intros Hs H Hi Hb Hinj. unfold LUSolveN, LUSolve. cbv zeta.
  (* the entries written so far agree *)
  pose (P := fun t (u : mem N) (w : vec N) => forall i, (i < t)%nat -> u (iget q i) = vget w (iget q i)).
  set (fw := fun (tmp : vec N) i => vset tmp (iget q i) (fsub N _ _)). set (bw := fun (tmp : vec N) i => vset tmp (iget q i) (fdiv N _ _)).
  assert (Pput : forall t u w k v, (k < 3)%nat -> (t <= 3)%nat -> (forall i, (i < t)%nat -> i <> k -> u (iget q i) = vget w (iget q i)) ->
     P t (put N u (iget q k) v) (vset w (iget q k) v)).
  { intros t u w k v Hk Ht HP i Hit. pose proof (Hs k Hk) as B1. pose proof (Hs i ltac:(lia)) as B2.
    unfold put. destruct (Nat.eqb_spec (iget q i) (iget q k)) as [E|E].
    - rewrite E. clear -B1. destruct w. revert B1. generalize (iget q k). intros kk B1. c3 B1; reflexivity.
    - assert (Hne : i <> k) by congruence. rewrite (HP i Hit Hne). clear -B1 B2 E. destruct w. revert B1 B2 E. generalize (iget q k) (iget q i). intros kk ii B1 B2 E. c3 B1; c3 B2; cbn; try reflexivity; congruence. }
  assert (F1 : P 3%nat (fold_left (fwd_step N 3 lu idx b) (seq 0 3) tmp) (fold_left fw (seq 0 3) (Vec (fZ N 0) (fZ N 0) (fZ N 0)))).
  { assert (St : forall k u w, (k < 3)%nat -> P k u w -> P (S k) (fwd_step N 3 lu idx b u k) (fw w k)).
    { intros k u w Hk HP. unfold fwd_step, fw. rewrite (Hi k Hk), (Hb _ (Hs k Hk)).
      rewrite (fold_eq _ (fun s j => fadd N s (fmul N (mget a k j) (vget w (iget q j))))).
      - apply Pput; [exact Hk|lia|]. intros i Hi' Hne. apply HP. lia.
      - intros j s Hj. apply in_seq in Hj. rewrite (H k j), (Hi j) by lia. rewrite (HP j) by lia. reflexivity. }
    cbn [seq fold_left]. apply St; [lia|]. apply St; [lia|]. apply St; [lia|]. intros i Hi'. lia. }
  change (rev (seq 0 3)) with [2; 1; 0]%nat.
  assert (F2 : P 3%nat (fold_left (bwd_step N 3 lu idx) [2; 1; 0]%nat (fold_left (fwd_step N 3 lu idx b) (seq 0 3) tmp))
       (fold_left bw [2; 1; 0]%nat (fold_left fw (seq 0 3) (Vec (fZ N 0) (fZ N 0) (fZ N 0))))).
  { apply (fold_rel (P 3%nat)); [|exact F1]. intros k u w Hk HP.
    assert (Hk3 : (k < 3)%nat) by (destruct Hk as [<-|[<-|[<-|[]]]]; lia).
    unfold bwd_step, bw. rewrite (Hi k Hk3), (H k k Hk3 Hk3), (HP k Hk3).
    rewrite (fold_eq _ (fun s j => fadd N s (fmul N (mget a k j) (vget w (iget q j))))).
    - apply Pput; [exact Hk3|lia|]. intros i Hi' _. apply HP. exact Hi'.
    - intros j s Hj. apply in_seq in Hj. rewrite (H k j), (Hi j) by lia. rewrite (HP j) by lia. reflexivity. }
  intros i Hi'. rewrite (Hi i Hi'). rewrite (F2 i Hi'). c3 Hi'; reflexivity.
Qed.

Lemma inj_step t j : (j < 3)%nat -> small (snd (fst t)) ->
  (forall i k, (i < 3)%nat -> (k < 3)%nat -> iget (snd (fst t)) i = iget (snd (fst t)) k -> i = k) ->
  (forall i k, (i < 3)%nat -> (k < 3)%nat -> iget (snd (fst (lu_step N t j))) i = iget (snd (fst (lu_step N t j))) k -> i = k).
Proof.
  destruct t as [[a q] w]. cbn [fst snd]. intros Hj Hsm H. unfold lu_step. cbv zeta.
  assert (Hp : (find_pivot N (crout_column N a j) w j < 3)%nat).
  { apply (pivot_eq (fun k => mget (crout_column N a j) (k / 3) (k mod 3)) _ (fun i => vget w i) w j Hj).
    - intros r c Hr Hc. unfold at2. rewrite Nat.div_add_l, Nat.div_small, Nat.add_0_r by lia.
      rewrite Nat.add_comm, Nat.mod_add, Nat.mod_small by lia. reflexivity.
    - intros i _. reflexivity. }
  set (p := find_pivot N _ w j) in *. clearbody p. destruct (Nat.eqb_spec j p) as [E|E]; [exact H|].
  cbn [fst snd]. destruct q as [[x y] z]. intros i k Hi Hk.
  pose proof (H 0%nat 1%nat ltac:(lia) ltac:(lia)) as A1. pose proof (H 0%nat 2%nat ltac:(lia) ltac:(lia)) as A2.
  pose proof (H 1%nat 2%nat ltac:(lia) ltac:(lia)) as A3. cbn [iget] in A1, A2, A3. clear H Hsm.
  c3 Hj; c3 Hp; try congruence; c3 Hi; c3 Hk; cbn; intros Q; try reflexivity;
    solve [discriminate (A1 Q) | discriminate (A1 (eq_sym Q)) | discriminate (A2 Q) | discriminate (A2 (eq_sym Q)) | discriminate (A3 Q) | discriminate (A3 (eq_sym Q))].
Qed.

Lemma decompose_eq m a x junk : Rl m a -> m 9%nat = x ->
  match LUDecompose N (Ok x) a with
  | Ok None => fst (LUDecomposeN N 3 m junk) = true
  | Ok (Some (a', q)) => fst (LUDecomposeN N 3 m junk) = false /\
      Rl (lu_m (snd (LUDecomposeN N 3 m junk))) a' /\ Ri (lu_idx (snd (LUDecomposeN N 3 m junk))) q /\ small q /\
      (forall i k, (i < 3)%nat -> (k < 3)%nat -> iget q i = iget q k -> i = k)
  | UB _ => False
  end.
Proof.
  intros H Hx. unfold LUDecompose, LUDecomposeN. rewrite !(largest_eq m a x) by (assumption || lia). cbn [bind].
  cbn [seq row_scalesN].
  destruct (feq N (row_largestN N 3 m 0) (fZ N 0)); [reflexivity|].
  destruct (feq N (row_largestN N 3 m 1) (fZ N 0)); [reflexivity|].
  destruct (feq N (row_largestN N 3 m 2) (fZ N 0)); [reflexivity|].
  set (l0 := fdiv N (fZ N 1) (row_largestN N 3 m 0)). set (l1 := fdiv N (fZ N 1) (row_largestN N 3 m 1)).
  set (l2 := fdiv N (fZ N 1) (row_largestN N 3 m 2)). set (rs := put N (put N (put N junk 0 l0) 1 l1) 2 l2).
  change [0; 1; 2]%nat with (seq 0 3).
  assert (R0 : Rs (LU m (fZ N 1) (fun i => i) rs) (a, (0, 1, 2)%nat, Vec l0 l1 l2)).
  { split; [exact H|]. split; [intros i Hi; c3 Hi; reflexivity|intros i Hi; c3 Hi; reflexivity]. }
  assert (R1 : Rs (fold_left (lu_stepN N 3) (seq 0 3) (LU m (fZ N 1) (fun i => i) rs))
                  (fold_left (lu_step N) (seq 0 3) (a, (0, 1, 2)%nat, Vec l0 l1 l2))).
  { apply (fold_rel Rs); [|exact R0]. intros k s t Hk. apply in_seq in Hk. apply Rs_step. lia. }
  assert (R2 : forall l t, (forall k, In k l -> (k < 3)%nat) ->
      small (snd (fst t)) /\ (forall i k, (i < 3)%nat -> (k < 3)%nat -> iget (snd (fst t)) i = iget (snd (fst t)) k -> i = k) ->
      let t' := fold_left (lu_step N) l t in
      small (snd (fst t')) /\ (forall i k, (i < 3)%nat -> (k < 3)%nat -> iget (snd (fst t')) i = iget (snd (fst t')) k -> i = k)).
  { induction l as [|k l IH]; intros t Hl [T1 T2]; cbn [fold_left]; [split; assumption|].
    apply IH; [intros; apply Hl; right; assumption|].
    assert ((k < 3)%nat) by (apply Hl; left; reflexivity).
    split; [apply small_step; assumption|apply inj_step; assumption]. }
  specialize (R2 (seq 0 3) (a, (0, 1, 2)%nat, Vec l0 l1 l2)).
  destruct R2 as [R2 R3].
  { intros k Hk. apply in_seq in Hk. lia. }
  { cbn [fst snd]. split; [intros i Hi; c3 Hi; cbn; lia|]. intros i k Hi Hk. c3 Hi; c3 Hk; cbn; lia. }
  revert R1 R2 R3. generalize (fold_left (lu_step N) (seq 0 3) (a, (0, 1, 2)%nat, Vec l0 l1 l2)). intros [[a' q] w] (R1 & R1' & _) R2 R3.
  cbn [fst snd] in *. split; [reflexivity|]. split; [exact R1|]. split; [exact R1'|]. split; [exact R2|exact R3].
Qed.

Theorem invert_eq m a x out junk tmp : Rl m a -> m 9%nat = x ->
  match Invert N (Ok x) a with
  | Ok None => InvertN N 3 m out junk tmp = (false, out)
  | Ok (Some b) => fst (InvertN N 3 m out junk tmp) = true /\ Rl (snd (InvertN N 3 m out junk tmp)) b
  | UB _ => False
  end.
Proof.
  intros H Hx. unfold Invert, InvertN. pose proof (decompose_eq m a x junk H Hx) as E.
  destruct (LUDecompose N (Ok x) a) as [[[a' q]|]|]; [| |contradiction]; cbn [bind];
    destruct (LUDecomposeN N 3 m junk) as [b s]; cbn [fst snd] in E.
  - destruct E as (-> & E1 & E2 & E3 & E4). cbn [fst snd]. split; [reflexivity|].
    pose (X := fun j => LUSolveN N 3 (lu_m s) (lu_idx s) (put N (fun _ => fZ N 0) j (fZ N 1)) tmp).
    assert (HX0 : forall i, (i < 3)%nat -> X 0%nat i = vget (LUSolve N a' q (Vec (fZ N 1) (fZ N 0) (fZ N 0))) i).
    { apply solve_eq; try assumption. intros i Hi. c3 Hi; reflexivity. }
    assert (HX1 : forall i, (i < 3)%nat -> X 1%nat i = vget (LUSolve N a' q (Vec (fZ N 0) (fZ N 1) (fZ N 0))) i).
    { apply solve_eq; try assumption. intros i Hi. c3 Hi; reflexivity. }
    assert (HX2 : forall i, (i < 3)%nat -> X 2%nat i = vget (LUSolve N a' q (Vec (fZ N 0) (fZ N 0) (fZ N 1))) i).
    { apply solve_eq; try assumption. intros i Hi. c3 Hi; reflexivity. }
    fold X. intros r c Hr Hc.
    change (at3 (fold_left (fun out j => fold_left (fun out i => put2 N 3 out i j (X j i)) (seq 0 3) out) (seq 0 3) out) r c = 
      mget (Mat (v0 (LUSolve N a' q (Vec (fZ N 1) (fZ N 0) (fZ N 0)))) (v0 (LUSolve N a' q (Vec (fZ N 0) (fZ N 1) (fZ N 0)))) (v0 (LUSolve N a' q (Vec (fZ N 0) (fZ N 0) (fZ N 1))))
       (v1 (LUSolve N a' q (Vec (fZ N 1) (fZ N 0) (fZ N 0)))) (v1 (LUSolve N a' q (Vec (fZ N 0) (fZ N 1) (fZ N 0)))) (v1 (LUSolve N a' q (Vec (fZ N 0) (fZ N 0) (fZ N 1))))
       (v2 (LUSolve N a' q (Vec (fZ N 1) (fZ N 0) (fZ N 0)))) (v2 (LUSolve N a' q (Vec (fZ N 0) (fZ N 1) (fZ N 0)))) (v2 (LUSolve N a' q (Vec (fZ N 0) (fZ N 0) (fZ N 1))))) r c).
    generalize dependent (LUSolve N a' q (Vec (fZ N 1) (fZ N 0) (fZ N 0))).
    generalize dependent (LUSolve N a' q (Vec (fZ N 0) (fZ N 1) (fZ N 0))).
    generalize dependent (LUSolve N a' q (Vec (fZ N 0) (fZ N 0) (fZ N 1))). generalize X.
    intros Y u Hu v Hv w Hw. clear -Hr Hc Hu Hv Hw.
    pose proof (fun i => Hu i) as _.
    c3 Hr; c3 Hc; unfold at2, put2, put; cbn;
    first [exact (Hw 0%nat ltac:(lia)) | exact (Hv 0%nat ltac:(lia)) | exact (Hu 0%nat ltac:(lia))
          |exact (Hw 1%nat ltac:(lia)) | exact (Hv 1%nat ltac:(lia)) | exact (Hu 1%nat ltac:(lia))
          |exact (Hw 2%nat ltac:(lia)) | exact (Hv 2%nat ltac:(lia)) | exact (Hu 2%nat ltac:(lia))].
  - rewrite E. reflexivity.
Qed.
End T.
