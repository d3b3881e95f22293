(** Satisfiability lemmas and concrete witnesses for the alignment theorems. *)
From Verif Require Import Base Num M_Linalg M_Helper M_Alignment S_Alignment.
From Verif Require Import P_Alignment P_AlignState P_AlignState2.
From Coq Require Import Permutation Sorted Reals Lra Floats.SpecFloat.
From Flocq Require Import Core.
Open Scope Z_scope.

(** The reference sorter meets the assumptions on qsort, for every arithmetic. *)
Section Ins.
Context (N : Num).
Lemma insert_perm v l : Permutation (insert_sorted N v l) (v :: l).
Proof.
  induction l as [|w l IH]; cbn [insert_sorted]; [reflexivity|].
  destruct (xyz_lt N v w); [reflexivity|]. rewrite IH. apply perm_swap.
Qed.
Lemma insertion_perm_acc l : forall acc, Permutation (fold_left (fun acc v => insert_sorted N v acc) l acc) (acc ++ l).
Proof.
  induction l as [|v l IH]; intros acc; cbn [fold_left]; [rewrite app_nil_r; reflexivity|].
  rewrite IH. rewrite (insert_perm v acc). cbn [app]. apply Permutation_middle.
Qed.
Lemma insertion_sort_permuting : permuting N (insertion_sort N).
Proof. intros l. apply (insertion_perm_acc l []). Qed.

Lemma insert_SS v l : weak_order N -> StronglySorted (by_azimuth N) l -> StronglySorted (by_azimuth N) (insert_sorted N v l).
Proof.
  intros (Hi & Ht & Hc). induction l as [|w l IH]; intros Hs; cbn [insert_sorted].
  - constructor; constructor.
  - inversion Hs as [|? ? Hs' Hw]; subst. destruct (xyz_lt N v w) eqn:E.
    + constructor; [exact Hs|]. unfold xyz_lt in E. constructor.
      * unfold by_azimuth. destruct (flt N (px (actual w)) (px (actual v))) eqn:E2; [|reflexivity].
        pose proof (Ht _ _ _ E E2) as E3. rewrite Hi in E3. discriminate.
      * apply Forall_forall. intros z Hz. rewrite Forall_forall in Hw. specialize (Hw z Hz). unfold by_azimuth in *.
        destruct (flt N (px (actual z)) (px (actual v))) eqn:E2; [|reflexivity].
        pose proof (Ht _ _ _ E2 E) as E3. congruence.
    + constructor; [apply IH, Hs'|]. apply Forall_forall. intros z Hz.
      apply (Permutation_in _ (insert_perm v l)) in Hz. destruct Hz as [<-|Hz]; [exact E|].
      rewrite Forall_forall in Hw. apply Hw, Hz.
Qed.
Lemma insertion_sort_sorting : sorting N (insertion_sort N).
Proof.
  split; [exact insertion_sort_permuting|]. intros Hw l. unfold insertion_sort.
  assert (H : forall acc, StronglySorted (by_azimuth N) acc ->
     StronglySorted (by_azimuth N) (fold_left (fun acc v => insert_sorted N v acc) l acc)).
  { induction l as [|v l IH]; intros acc Ha; cbn [fold_left]; [exact Ha|]. apply IH, insert_SS; assumption. }
  apply H. constructor.
Qed.
End Ins.

Lemma weak_order_R : weak_order NumR.
Proof.
  unfold weak_order. cbn [flt NumR]. split; [|split].
  - intros x. apply Rlt_bool_false, Rle_refl.
  - intros x y z. rewrite !Rlt_bool_iff. lra.
  - intros x y z. rewrite !Rlt_bool_niff. lra.
Qed.
Lemma feq_sym_R : forall x y, feq NumR x y = feq NumR y x.
Proof.
  cbn [feq NumR]. intros x y. destruct (Req_bool_spec x y) as [E|E], (Req_bool_spec y x) as [E'|E']; congruence.
Qed.

(** doubles *)
Definition fz (z : Z) : F NumSF := sf_ofZ z.
Definition milli (z : Z) : F NumSF := fq NumSF z 1000.
Definition mkadd (x y x' y' : F NumSF) : op NumSF := Add (Pt x y : point NumSF) (Pt x' y').
Definition sync (o : op NumSF) : list (op NumSF) := [o; Triangulate].
Definition runSF (ops : list (op NumSF)) : res (align NumSF) :=
  run NumSF (insertion_sort NumSF) (Ok (fz 0)) (Some (fz 0, fz 0)) (align_init NumSF) ops.
(** plain data shown by a run *)
Definition count (r : res (align NumSF)) : option (Z * Z) :=
  match r with Ok a => Some (numVertices a, numTriangles a) | UB _ => None end.
Definition references (r : res (align NumSF)) : option (list (spec_float * spec_float)) :=
  match r with Ok a => Some (map (fun v => (px (reference v), py (reference v))) (stored a)) | UB _ => None end.
Definition show_type (r : res (align NumSF)) (p : point NumSF) : option ttype :=
  match r with Ok a => match getTransformationType NumSF a p with Ok t => Some t | UB _ => None end | UB _ => None end.
Definition show_cal (r : res (align NumSF)) (p : point NumSF) : option (spec_float * spec_float) :=
  match r with Ok a => match getCalibratedOrientation NumSF a p with Ok q => Some (px q, py q) | UB _ => None end | UB _ => None end.

(** 8 points a few millionths of a degree apart, each a "sync" *)
Definition micro_points : list (Z * Z) := [(0,6);(1,0);(4,3);(5,0);(5,6);(6,3);(6,9);(7,0)].
Definition micro_adds (l : list (Z * Z)) : list (op NumSF) :=
  map (fun '(x, y) => let x' := fq NumSF x 1000000 in let y' := fq NumSF y 10000000 in mkadd x' y' x' y') l.
(** 12 points with azimuths whole degrees apart and almost equal altitudes *)
Definition row_points : list (Z * Z) := [(0,9);(0,15);(1,21);(1,0);(1,6);(1,3);(1,9);(3,24);(3,6);(3,3);(3,9);(3,12)].
Definition row_adds (l : list (Z * Z)) : list (op NumSF) :=
  map (fun '(x, y) => let x' := fz x in let y' := fq NumSF y 10000000 in mkadd x' y' x' y') l.
Lemma micro_overflow : show_ub (runSF (flat_map sync (micro_adds micro_points))) = Some OobWrite.
Proof. vm_compute. reflexivity. Qed.
Lemma row_overflow : show_ub (runSF (row_adds row_points ++ [Triangulate])) = Some OobWrite.
Proof. vm_compute. reflexivity. Qed.

Definition grid_adds (n : nat) : list (op NumSF) := map (fun k => mkadd (fz k) (fz 0) (fz k) (fz 0)) (zseq n).
Lemma count_63 : count (runSF (grid_adds 63)) = Some (63, 0).
Proof. vm_compute. reflexivity. Qed.
Lemma count_64 : count (runSF (grid_adds 64)) = Some (0, 0).
Proof. vm_compute. reflexivity. Qed.

(** Four points of a small square; only the first one has a displaced reference. *)
Definition square_ops : list (op NumSF) := flat_map sync
  [mkadd (milli 100000) (milli 40000) (milli 102000) (milli 41000);
   mkadd (milli 100000) (milli 40005) (milli 100000) (milli 40005);
   mkadd (milli 100005) (milli 40001) (milli 100005) (milli 40001);
   mkadd (milli 100006) (milli 40006) (milli 100006) (milli 40006)].
Lemma square_run :
  count (runSF square_ops) = Some (4, 2) /\
  nth_error (match references (runSF square_ops) with Some l => l | None => [] end) 0 = Some (milli 102000, milli 41000) /\
  match show_cal (runSF square_ops) (Pt (milli 100000) (milli 40000)) with
  | Some (az, alt) => SFltb az (fz 101) && SFltb alt (fz 40) = true
  | None => False
  end.
Proof. vm_compute. auto. Qed.

(** reference azimuths that drift away from the first point's *)
Lemma drift_run :
  references (runSF [mkadd (fz 10) (fz 0) (fz 350) (fz 0); mkadd (fz 5) (fz 0) (fz 100) (fz 0);
                     mkadd (fz 20) (fz 0) (fz 200) (fz 0)])
  = Some [(fz 460, fz 0); (fz 350, fz 0); (fz 560, fz 0)] /\
  references (runSF [mkadd (fz 10) (fz 0) (fz 350) (fz 0); mkadd (fz 5) (fz 0) (fz 100) (fz 0);
                     mkadd (fz 4) (fz 0) (fz 200) (fz 0); mkadd (fz 3) (fz 0) (fz 300) (fz 0);
                     mkadd (fz 2) (fz 0) (fz 40) (fz 0)])
  = Some [(fz 400, fz 0); (fz 660, fz 0); (fz 560, fz 0); (fz 460, fz 0); (fz 350, fz 0)].
Proof. vm_compute. auto. Qed.
