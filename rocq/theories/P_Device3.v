(** What a synchronised orientation is stored as, in the running device. *)
From Verif Require Import Base Num M_Linalg M_Helper M_Alignment S_Alignment P_Alignment P_AlignState P_AlignState2 M_Telescope S_Device P_AlignR S_Sky P_Sky Properties_Alignment Properties_Sky.
From Coq Require Import Permutation Reals Lra.
Open Scope Z_scope.
Notation length := List.length.

Section Keep.
Context (N : Num) (qsort : list (vpair N) -> list (vpair N)) (x : F N) (j : F N * F N).
Hypothesis Hq : permuting N qsort.
Notation run := (run N qsort (Ok x) (Some j)).
Definition no_clear (ops : list (op N)) : Prop := ~ In Clear ops.

Lemma spec_grows ops : no_clear ops -> forall l, (length l <= length (spec_points N ops l))%nat.
Proof.
  induction ops as [|[p r| |] ops IH]; intros Hn l; cbn [spec_points]; [lia| | |apply IH; intros H; apply Hn; right; exact H].
  - assert (Hn' : no_clear ops) by (intros H; apply Hn; right; exact H). specialize (IH Hn' (if existsb (fun q => same N q p) l then l else l ++ [p])).
    destruct (existsb _ _) in *; [exact IH|]. rewrite app_length in IH. cbn [length] in IH. lia.
  - exfalso. apply Hn. left. reflexivity.
Qed.
Lemma kept ops : forall a l a' v, hist_inv N a l -> run a ops = Ok a' -> no_clear ops -> (length (spec_points N ops l) <= 63)%nat ->
  In v (stored a) -> In v (stored a').
Proof.
  induction ops as [|o ops IH]; intros a l a' v Hi E Hn Hl Hv; cbn [S_Alignment.run] in E.
  - injection E as <-. exact Hv.
  - destruct (S_Alignment.step N qsort (Ok x) (Some j) a o) as [a1|u] eqn:E1; cbn [bind] in E; [|discriminate].
    assert (Hn' : no_clear ops) by (intros H; apply Hn; right; exact H).
    change (o :: ops) with ([o] ++ ops) in Hl. rewrite spec_points_app in Hl.
    assert (L1 : (length (spec_points N [o] l) <= 63)%nat) by (pose proof (spec_grows ops Hn' (spec_points N [o] l)); lia).
    eapply IH; [eapply hist_step; eauto|exact E|exact Hn'|exact Hl|].
    destruct Hi as (HW & Hp & _). destruct o as [p r| |]; cbn [S_Alignment.step] in E1.
    + destruct (is_dup N a p) eqn:D.
      * rewrite addVertexPair_dup in E1 by exact D. cbn in E1. injection E1 as <-. exact Hv.
      * destruct (addVertexPair_new N qsort a p r Hq HW D) as (a2 & r' & E2 & _ & _ & _ & _ & _ & _ & Hlt & _).
        rewrite E2 in E1. cbn in E1. injection E1 as ->.
        assert (Hd : existsb (fun q => same N q p) l = false) by (rewrite <- D; unfold is_dup; apply existsb_perm; symmetry; exact Hp).
        cbn [spec_points] in L1. rewrite Hd, app_length in L1. cbn [length] in L1.
        apply Permutation_length in Hp. rewrite map_length, (stored_length N a HW) in Hp. destruct HW as ((? & ?) & _).
        destruct Hlt as (_ & ->); [lia|]. apply (Permutation_in v (Permutation_sym (Hq _))). apply in_or_app. left. exact Hv.
    + exfalso. apply Hn. left. reflexivity.
    + destruct (triangulate_actual N x j a HW) as [(a2 & E2 & _ & _ & Es & _)|(_ & _ & E2)]; rewrite E2 in E1; [|discriminate].
      injection E1 as <-. rewrite Es. exact Hv.
Qed.
(** a newly named orientation stays in the store with the direction given for it *)
Lemma named ops0 p r rest a : never_more_than N 63 (ops0 ++ Add p r :: rest) -> no_clear rest ->
  existsb (fun q => same N q p) (spec_points N ops0 []) = false ->
  reaches N qsort x j (ops0 ++ Add p r :: rest) a -> exists r', unwrapped N r r' /\ In (VP p r') (stored a).
Proof.
  intros Hm Hc Hd H. unfold reaches in H. rewrite run_app in H. destruct (run (align_init N) ops0) as [a0|] eqn:E0; [|discriminate]. cbn [bind S_Alignment.run S_Alignment.step] in H.
  assert (I0 : hist_inv N a0 (spec_points N ops0 [])).
  { eapply hist_run; [exact Hq|apply hist_inv_init| |exact E0]. intros k. destruct (Nat.le_gt_cases k (length ops0)) as [K|K].
    - specialize (Hm k). rewrite firstn_app in Hm. replace (k - length ops0)%nat with O in Hm by lia. cbn [firstn] in Hm. rewrite app_nil_r in Hm. exact Hm.
    - specialize (Hm (length ops0)). rewrite firstn_app, firstn_all, Nat.sub_diag in Hm. cbn [firstn] in Hm. rewrite app_nil_r in Hm. rewrite firstn_all2 by lia. exact Hm. }
  pose proof I0 as (W0 & P0 & _).
  assert (D : is_dup N a0 p = false) by (rewrite <- Hd; unfold is_dup; apply existsb_perm; exact P0).
  destruct (addVertexPair_new N qsort a0 p r Hq W0 D) as (a1 & r' & E1 & W1 & _ & _ & Hu & _ & _ & Hlt & _).
  rewrite E1 in H. cbn [bind] in H. exists r'. split; [exact Hu|].
  assert (L1 : (length (spec_points N ops0 []) + 1 <= 63)%nat).
  { specialize (Hm (S (length ops0))). rewrite firstn_app in Hm. replace (S (length ops0) - length ops0)%nat with 1%nat in Hm by lia. rewrite firstn_all2 in Hm by lia.
    cbn [firstn] in Hm. rewrite spec_points_app in Hm. cbn [spec_points] in Hm. rewrite Hd, app_length in Hm. exact Hm. }
  assert (Hlen := Permutation_length P0). rewrite map_length, (stored_length N a0 W0) in Hlen. pose proof W0 as ((? & ?) & _).
  destruct Hlt as (_ & Es); [lia|].
  eapply (kept rest a1 (spec_points N ops0 [] ++ [p])); [|exact H|exact Hc| |rewrite Es; apply (Permutation_in _ (Permutation_sym (Hq _))); apply in_or_app; right; left; reflexivity].
  - assert (K := hist_step N qsort x j a0 (spec_points N ops0 []) (Add p r) a1 Hq I0). cbn [spec_points S_Alignment.step] in K. rewrite Hd, E1 in K. apply K; [rewrite app_length; cbn [length]; lia|reflexivity].
  - specialize (Hm (length (ops0 ++ Add p r :: rest))). rewrite firstn_all, spec_points_app in Hm. cbn [spec_points] in Hm. rewrite Hd in Hm. exact Hm.
Qed.
End Keep.

(** directions *)
Open Scope R_scope.
Lemma unwrapped_turn (r r' : point NumR) : unwrapped NumR r r' -> same_turn (X r') (X r) /\ Y r' = Y r.
Proof.
  intros (Uy & Ux). split; [|exact Uy]. cbn [fadd fsub fZ NumR] in Ux. unfold X in *.
  destruct Ux as [Ux|[Ux|[Ux|Ux]]]; rewrite Ux; [exists 0%Z|exists 1%Z|exists (-1)%Z|exists 0%Z]; change (F NumR) with R; lra.
Qed.
Lemma vec_turn a b e : same_turn a b -> vec a e = vec b e.
Proof. intros H. unfold vec. rewrite (cos_turn _ _ H), (sin_turn _ _ H). reflexivity. Qed.
(** the calibrated position is the sky position of the calibrated direction *)
Lemma position_of_direction (t : telescope NumR) X0 Y0 lat lst ty : getTransformationType NumR (t_align t) (t_orient t) = Ok ty ->
  calibrated_to (t_align t) (t_orient t) X0 Y0 ->
  exists q, calibratedEquatorial NumR TrigR t lat lst = Ok (q, ty) /\ horizon_vec (lst - RA q) (DEC q) lat = vec X0 Y0 /\
    0 <= RA q < 360 /\ -90 <= DEC q <= 90.
Proof.
  intros Et (d & Ed & _ & Ht & Ey). eexists. unfold calibratedEquatorial. rewrite Et. cbn [bind]. rewrite Ed. cbn [bind]. split; [reflexivity|].
  change (px d) with (X d). change (py d) with (Y d). rewrite (C30_equatorial_is_the_star_seen_there (X d) (Y d) lat lst).
  split; [rewrite Ey; apply vec_turn; exact Ht|]. destruct (C29_normalised (X d) (Y d) lat lst) as [K _]. exact K.
Qed.
(** two stars seen in the same direction from the same latitude *)
Lemma horizon_inj h d h' d' p : horizon_vec h d p = horizon_vec h' d' p -> vec h d = vec h' d'.
Proof. intros H. rewrite <- !rot_vec in H. rewrite <- (rot_rot p (vec h d)), <- (rot_rot p (vec h' d')), H. reflexivity. Qed.
