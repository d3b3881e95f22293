(** Invariants of the Alignment object, for every arithmetic. *)
From Verif Require Import Base Num M_Linalg M_Helper M_Alignment S_Alignment P_Alignment.
From Coq Require Import Permutation Sorted.

Section State.
Context (N : Num).
Notation point := (point N). Notation vpair := (vpair N). Notation align := (align N). Notation F := (F N).

(** Memory layout invariant: every reachable object satisfies it (run_WF). *)
Definition WF (a : align) : Prop :=
  0 <= numVertices a < 64 /\ length (verts a) = 67%nat /\ length (mats a) = 192%nat /\
  Forall (three_of 64) (tris a) /\ (length (tris a) <= 192)%nat.

Lemma WF_init : WF (align_init N).
Proof.
  unfold WF, align_init. cbn [numVertices verts mats tris]. rewrite !repeat_length.
  repeat split; try lia; try constructor. cbn; lia.
Qed.

Lemma WF_clear a : WF a -> WF (clearAll N a).
Proof. unfold WF, clearAll. cbn. intros (H1 & H2 & H3 & H4 & H5). repeat split; auto; try lia. Qed.

Lemma stored_length a : WF a -> length (stored a) = Z.to_nat (numVertices a).
Proof. intros (H1 & H2 & _). unfold stored. rewrite firstn_length. lia. Qed.

(** ** addVertexPair *)
Lemma upd_firstn {A} (l : list A) : forall i x l', upd l i x = Some l' ->
  firstn i l' = firstn i l /\ firstn (S i) l' = firstn i l ++ [x] /\ skipn (S i) l' = skipn (S i) l.
Proof.
  induction l as [|h t IH]; intros [|i] x l' H; cbn [upd] in H; try discriminate.
  - injection H as <-. auto.
  - destruct (upd t i x) as [t'|] eqn:E; [|discriminate]. injection H as <-.
    destruct (IH _ _ _ E) as (H1 & H2 & H3). cbn [firstn skipn] in *.
    rewrite H1. cbn [app]. split; [reflexivity|]. split; [f_equal; exact H2|exact H3].
Qed.

Definition is_dup (a : align) (p : point) : bool := existsb (fun q => same N q p) (map actual (stored a)).
Lemma is_duplicate_eq a p : is_duplicate N a p = is_dup a p.
Proof.
  unfold is_duplicate, is_dup, stored. induction (firstn _ _) as [|v l IH]; cbn; [reflexivity|].
  rewrite IH. reflexivity.
Qed.

(** The stored reference: altitude unchanged, azimuth shifted by 0, +360 or -360. *)
Definition unwrapped (r r' : point) : Prop :=
  py r' = py r /\
  (px r' = px r \/ px r' = fadd N (px r) (fZ N 360) \/ px r' = fsub N (px r) (fZ N 360) \/
   px r' = fsub N (fadd N (px r) (fZ N 360)) (fZ N 360)).
Lemma unwrap_unwrapped f r : unwrapped r (unwrap N f r).
Proof.
  unfold unwrapped, unwrap.
  destruct (flt N (fZ N 180) _); cbn [px py]; destruct (flt N _ (fZ N (-180))); cbn [px py]; auto.
Qed.

Section WithSort.
Context (qsort : list vpair -> list vpair).

Lemma addVertexPair_dup a p r : is_dup a p = true -> addVertexPair N qsort a p r = Ok (false, a).
Proof. intros H. unfold addVertexPair. rewrite is_duplicate_eq, H. reflexivity. Qed.

Lemma addVertexPair_new a p r : permuting N qsort -> WF a -> is_dup a p = false ->
  exists a' r', addVertexPair N qsort a p r = Ok (true, a') /\ WF a' /\
    tris a' = tris a /\ mats a' = mats a /\ unwrapped r r' /\
    (stored a = [] -> r' = r) /\
    (forall v vs, stored a = v :: vs -> r' = unwrap N v r) /\
    (numVertices a < 63 -> numVertices a' = numVertices a + 1 /\
        stored a' = qsort (stored a ++ [VP p r'])) /\
    (numVertices a = 63 -> numVertices a' = 0 /\ stored a' = []).
Proof.
  intros Hq HW Hd. pose proof HW as (H1 & H2 & H3 & H4 & H5).
  unfold addVertexPair. rewrite is_duplicate_eq, Hd.
  assert (Hr : exists r', (if 0 <? numVertices a then do v0 <- rd (verts a) 0; Ok (unwrap N v0 r) else Ok r) = Ok r' /\
     unwrapped r r' /\ (stored a = [] -> r' = r) /\ (forall v vs, stored a = v :: vs -> r' = unwrap N v r)).
  { destruct (Z.ltb_spec 0 (numVertices a)) as [Hn|Hn].
    - destruct (verts a) as [|v l] eqn:Ev; [discriminate|]. cbn [rd nth_error bind].
      unfold rd. cbn [nth_error bind].
      exists (unwrap N v r). split; [reflexivity|]. split; [apply unwrap_unwrapped|].
      unfold stored. rewrite Ev. destruct (Z.to_nat (numVertices a)) eqn:En; [lia|]. cbn [firstn].
      split; [discriminate|]. intros v' vs E. injection E as <- _. reflexivity.
    - exists r. split; [reflexivity|]. split; [split; auto|]. split; [auto|].
      intros v vs E. apply (f_equal (@length _)) in E. rewrite (stored_length a HW) in E. cbn in E. lia. }
  destruct Hr as (r' & Er & Hr1 & Hr2 & Hr3). rewrite Er. cbn [bind].
  destruct (upd_some (verts a) (Z.to_nat (numVertices a)) (VP p r')) as (mem & Em); [lia|].
  unfold wr. rewrite Em. cbn [bind].
  pose proof (upd_length _ _ _ _ Em) as Hlm.
  destruct (upd_firstn _ _ _ _ Em) as (_ & Hf & _).
  set (n' := (numVertices a + 1) mod MAX_ALIGNMENT_POINTS).
  assert (Hn' : 0 <= n' < 64) by (apply Z.mod_pos_bound; unfold MAX_ALIGNMENT_POINTS; lia).
  assert (Hlen : length (qsort (firstn (Z.to_nat n') mem) ++ skipn (Z.to_nat n') mem) = 67%nat).
  { rewrite app_length, (Permutation_length (Hq _)), <- app_length, firstn_skipn. lia. }
  eexists _, r'. split; [reflexivity|].
  split. { unfold WF. cbn [numVertices verts mats tris]. repeat split; auto; lia. }
  cbn [tris mats]. split; [reflexivity|]. split; [reflexivity|]. split; [exact Hr1|].
  split; [exact Hr2|]. split; [exact Hr3|].
  assert (Hst : stored (Align n' (qsort (firstn (Z.to_nat n') mem) ++ skipn (Z.to_nat n') mem) (tris a) (mats a))
                = qsort (firstn (Z.to_nat n') mem)).
  { unfold stored. cbn [numVertices verts]. rewrite firstn_app.
    rewrite (Permutation_length (Hq _)), firstn_length.
    replace (Z.to_nat n' - Nat.min (Z.to_nat n') (length mem))%nat with 0%nat by lia.
    cbn [firstn]. rewrite app_nil_r. apply firstn_all2.
    rewrite (Permutation_length (Hq _)), firstn_length. lia. }
  split.
  - intros Hlt. assert (En : n' = numVertices a + 1).
    { unfold n', MAX_ALIGNMENT_POINTS. apply Z.mod_small. lia. }
    split; [exact En|]. rewrite Hst, En.
    replace (Z.to_nat (numVertices a + 1)) with (S (Z.to_nat (numVertices a))) by lia.
    rewrite Hf. reflexivity.
  - intros He. assert (En : n' = 0).
    { unfold n', MAX_ALIGNMENT_POINTS. rewrite He. reflexivity. }
    split; [exact En|]. unfold stored. cbn [numVertices]. rewrite En. reflexivity.
Qed.
End WithSort.

(** ** TriangulateActual *)
Lemma Invert_ok x a : exists o, Invert N (Ok x) a = Ok o.
Proof.
  unfold Invert, LUDecompose, row_largest. cbn [bind].
  repeat match goal with |- context [if ?b then Ok None else _] => destruct b; cbn [bind]; [eexists; reflexivity|] end.
  destruct (fold_left (lu_step N) (seq 0 3) _) as [[lu idx] rs]. cbn [bind]. eexists. reflexivity.
Qed.
Lemma solve_matrix_ok x a b : exists m, solve_matrix N (Ok x) a b = Ok m.
Proof. unfold solve_matrix. destruct (Invert_ok x a) as (o & E). rewrite E. cbn [bind]. eexists; reflexivity. Qed.

Definition solve x (a b : mat N) : mat N :=
  match solve_matrix N (Ok x) a b with Ok m => m | UB _ => identity N end.
Lemma solve_eq x a b : solve_matrix N (Ok x) a b = Ok (solve x a b).
Proof. unfold solve. destruct (solve_matrix_ok x a b) as (m & E). rewrite E. reflexivity. Qed.

(** matrix of triangle [t] over the vertex memory [vs] *)
Definition tri_solution x (vs : list vpair) (t : tri) : res (mat N) :=
  do a <- rdz vs (t1 t); do b <- rdz vs (t2 t); do c <- rdz vs (t3 t);
  Ok (solve x (tri_matrix N (actual a) (actual b) (actual c)) (tri_matrix N (reference a) (reference b) (reference c))).

Lemma update_tris_ok x vs : length vs = 67%nat -> forall ts i ms,
  Forall (three_of 64) ts -> (i + length ts <= length ms)%nat ->
  exists ms', update_tris N (Ok x) vs ts i ms = Ok ms' /\ length ms' = length ms /\
    (forall k, (k < i \/ i + length ts <= k)%nat -> nth_error ms' k = nth_error ms k) /\
    (forall k t, nth_error ts k = Some t -> exists m, tri_solution x vs t = Ok m /\ nth_error ms' (i + k) = Some (Some m)).
Proof.
  intros Hv. induction ts as [|t ts IH]; intros i ms Ht Hl; cbn [update_tris].
  - exists ms. split; [reflexivity|]. split; [reflexivity|]. split; [auto|].
    intros [|k] t E; discriminate.
  - inversion Ht as [|? ? Ht0 Ht1]; subst. destruct Ht0 as (K1 & K2 & K3 & _).
    destruct (rdz_some vs (t1 t)) as (a & Ea); [lia|].
    destruct (rdz_some vs (t2 t)) as (b & Eb); [lia|].
    destruct (rdz_some vs (t3 t)) as (c & Ec); [lia|].
    rewrite Ea, Eb, Ec. cbn [bind]. rewrite solve_eq. cbn [bind].
    set (m := solve _ _ _). cbn [length] in Hl.
    destruct (upd_some ms i (Some m)) as (ms1 & E1); [lia|]. unfold wr. rewrite E1. cbn [bind].
    pose proof (upd_length _ _ _ _ E1) as Hl1.
    destruct (IH (S i) ms1 Ht1) as (ms' & E & Hl' & Hk & Hm); [lia|].
    rewrite E. exists ms'. split; [reflexivity|]. split; [lia|]. split.
    + intros k Hkk. rewrite Hk by (cbn [length] in Hkk; lia).
      rewrite (upd_nth_error _ _ _ _ k E1). destruct (Nat.eqb_spec k i); [cbn [length] in Hkk; lia|reflexivity].
    + intros [|k] t' Et; cbn [nth_error] in Et.
      * injection Et as <-. exists m. split.
        { unfold tri_solution. rewrite Ea, Eb, Ec. reflexivity. }
        rewrite Nat.add_0_r, Hk by lia. rewrite (upd_nth_error _ _ _ _ i E1), Nat.eqb_refl. reflexivity.
      * destruct (Hm k t' Et) as (m' & Em & En). exists m'. split; [exact Em|].
        rewrite <- En. f_equal. lia.
Qed.

Lemma set_actual_ok (mem : list vpair) i p : (i < length mem)%nat ->
  exists mem', set_actual N mem i p = Ok mem' /\ length mem' = length mem /\
     (forall j, (j <= i)%nat -> firstn j mem' = firstn j mem) /\
     (forall j, (j <> i)%nat -> nth_error mem' j = nth_error mem j) /\
     (exists r, nth_error mem' i = Some (VP p r)).
Proof.
  intros H. unfold set_actual. destruct (nth_error mem i) as [v|] eqn:E.
  2:{ apply nth_error_None in E. lia. }
  unfold rd. rewrite E. cbn [bind].
  destruct (upd_some mem i (VP p (reference v)) H) as (mem' & Em). unfold wr. rewrite Em.
  exists mem'. split; [reflexivity|]. split; [apply (upd_length _ _ _ _ Em)|].
  split; [|split].
  - intros j Hj. destruct (upd_firstn _ _ _ _ Em) as (Hf & _).
    rewrite <- (Nat.min_l j i Hj), <- !firstn_firstn, Hf. reflexivity.
  - intros j Hj. rewrite (upd_nth_error _ _ _ _ j Em). apply Nat.eqb_neq in Hj. rewrite Hj. reflexivity.
  - exists (reference v). rewrite (upd_nth_error _ _ _ _ i Em), Nat.eqb_refl. reflexivity.
Qed.

Lemma upd_same {A} (l : list A) : forall i x, nth_error l i = Some x -> upd l i x = Some l.
Proof.
  induction l as [|h t IH]; intros [|i] x H; cbn in *; try discriminate.
  - injection H as ->. reflexivity.
  - rewrite (IH _ _ H). reflexivity.
Qed.
Lemma set_actual_same (mem : list vpair) i p r : nth_error mem i = Some (VP p r) -> set_actual N mem i p = Ok mem.
Proof.
  intros H. unfold set_actual, rd. rewrite H. cbn [bind reference]. unfold wr. rewrite (upd_same _ _ _ H). reflexivity.
Qed.

(** length bound of the triangle list *)
Lemma filter_map_visit_length {A S} (f : S -> A -> res (S * option A)) : forall xs s s' ks,
  visit f s xs = Ok (s', ks) -> (length ks <= length xs)%nat.
Proof.
  induction xs as [|x xs IH]; intros s s' ks H; cbn [visit] in H.
  - injection H as _ <-. cbn. lia.
  - destruct (f s x) as [[s1 o]|u]; cbn [bind] in H; [|discriminate].
    destruct (visit f s1 xs) as [[s2 ks2]|u] eqn:E; cbn [bind] in H; [|discriminate].
    injection H as _ <-. apply IH in E. destruct o; cbn [length]; lia.
Qed.
Lemma sweep_all_length {A S} (f : S -> A -> res (S * option A)) s l s' l' :
  sweep_all f s l = Ok (s', l') -> (length l' <= length l)%nat.
Proof.
  intros H. destruct (sweep_all_visit f s l) as (xs & Hp & Hv).
  destruct (visit f s xs) as [[s2 ks]|u] eqn:E.
  - destruct Hv as (l2 & E2 & Hp2). rewrite E2 in H. injection H as _ <-.
    rewrite (Permutation_length Hp2), <- (Permutation_length Hp).
    apply (filter_map_visit_length _ _ _ _ _ E).
  - rewrite Hv in H. discriminate.
Qed.
Lemma new_tris_length cap i es : forall l l', Z.of_nat (length l) <= cap ->
  new_tris cap i es l = Ok l' -> Z.of_nat (length l') <= cap.
Proof.
  induction es as [|e es IH]; intros l l' Hl H; cbn [new_tris] in H; [injection H as <-; exact Hl|].
  destruct ((e1 e <? 0) || (e2 e <? 0)); [eapply IH; eauto|].
  destruct (Z.ltb_spec (Z.of_nat (length l)) cap); [|discriminate].
  eapply IH; [|exact H]. rewrite app_length. cbn [length]. lia.
Qed.
Lemma add_points_length cap (pts : list point) : forall is cc em l cc' em' l', Z.of_nat (length l) <= cap ->
  add_points N cap pts (cc, em, l) is = Ok (cc', em', l') -> Z.of_nat (length l') <= cap.
Proof.
  induction is as [|i is IH]; intros cc em l cc' em' l' Hl H; cbn [add_points] in H.
  - injection H as _ _ <-. exact Hl.
  - destruct (add_point N cap pts (cc, em, l) i) as [[[cc1 em1] l1]|u] eqn:E; cbn [bind] in H; [|discriminate].
    eapply IH; [|exact H]. unfold add_point in E.
    destruct (rdz pts i) as [p|u]; cbn [bind] in E; [|discriminate].
    destruct (sweep_all _ _ l) as [[s l2]|u] eqn:Es; cbn [bind] in E; [|discriminate].
    apply sweep_all_length in Es.
    destruct (new_tris cap i _ l2) as [l3|u] eqn:En; cbn [bind] in E; [|discriminate].
    injection E as _ _ <-. eapply new_tris_length; [|exact En]. lia.
Qed.
Lemma triangulate_length cap j (ps : list point) ts sv : 1 <= cap ->
  triangulate_cap N cap j ps = Ok (ts, sv) -> Z.of_nat (length ts) <= cap.
Proof.
  intros Hc H. unfold triangulate_cap in H. destruct ps as [|p0 rest]; [discriminate|].
  destruct (super_vertices N p0 rest) as [[s0 s1] s2].
  destruct (add_points N cap _ _ _) as [[[cc em] l]|u] eqn:E; cbn [bind] in H; [|discriminate].
  apply add_points_length in E; [|cbn [length]; lia].
  destruct (sweep_all _ _ _) as [[[] l2]|u] eqn:Es; cbn [bind] in H; [|discriminate].
  injection H as <- _. apply sweep_all_length in Es. rewrite map_length in Es. lia.
Qed.

(** Matrices after updateTransformationMatrices. *)
Definition mats_spec x (a : align) : Prop :=
  (tris a = [] -> forall v, stored a = [v] -> nth_error (mats a) 0 = Some (Some (translation N v))) /\
  (tris a = [] -> forall v w rest, stored a = v :: w :: rest ->
     nth_error (mats a) 0 = Some (Some (solve x (line_matrix N (actual v) (actual w)) (line_matrix N (reference v) (reference w))))) /\
  (forall k t, nth_error (tris a) k = Some t ->
     exists m, tri_solution x (verts a) t = Ok m /\ nth_error (mats a) k = Some (Some m)) /\
  (tris a = [] -> stored a = [] -> nth_error (mats a) 0 = Some (Some (identity N))).

Lemma stored_nth (a : align) k v : nth_error (stored a) k = Some v -> nth_error (verts a) k = Some v.
Proof.
  unfold stored. revert k. generalize (Z.to_nat (numVertices a)) as n. generalize (verts a) as l.
  induction l as [|h t IH]; intros [|n] [|k] H; cbn in *; try discriminate; auto. eapply IH; eauto.
Qed.

Lemma update_ok x a : WF a -> exists a', updateTransformationMatrices N (Ok x) a = Ok a' /\
  WF a' /\ numVertices a' = numVertices a /\ verts a' = verts a /\ tris a' = tris a /\ mats_spec x a'.
Proof.
  intros HW. pose proof HW as (H1 & H2 & H3 & H4 & H5). unfold updateTransformationMatrices.
  assert (Hw0 : forall m, exists ms, wr (mats a) 0 (Some m) = Ok ms /\ length ms = 192%nat /\ nth_error ms 0 = Some (Some m)).
  { intros m. destruct (upd_some (mats a) 0 (Some m)) as (ms & E); [lia|]. unfold wr. rewrite E.
    exists ms. split; [reflexivity|]. split; [rewrite (upd_length _ _ _ _ E); exact H3|].
    rewrite (upd_nth_error _ _ _ _ 0%nat E). reflexivity. }
  assert (HT : numTriangles a = 0 <-> tris a = []).
  { unfold numTriangles. destruct (tris a); cbn [length]; split; intros E; [reflexivity|reflexivity|lia|discriminate]. }
  assert (Hs : forall k, (k < Z.to_nat (numVertices a))%nat -> exists v, nth_error (stored a) k = Some v).
  { intros k Hk. destruct (nth_error (stored a) k) eqn:E; [eauto|]. apply nth_error_None in E.
    rewrite (stored_length a HW) in E. lia. }
  assert (Hgen : forall ms, length ms = 192%nat ->
     mats_spec x (Align (numVertices a) (verts a) (tris a) ms) ->
     exists a', Ok (Align (numVertices a) (verts a) (tris a) ms) = Ok a' /\ WF a' /\
       numVertices a' = numVertices a /\ verts a' = verts a /\ tris a' = tris a /\ mats_spec x a').
  { intros ms Hms Hsp. eexists. split; [reflexivity|]. split.
    { unfold WF. cbn. repeat split; auto; lia. }
    cbn. auto. }
  pose proof (stored_length a HW) as Hsl.
  destruct ((numTriangles a =? 0) && (numVertices a =? 1)) eqn:C1.
  { apply andb_true_iff in C1. destruct C1 as [C1 C2]. apply Z.eqb_eq in C1, C2. apply HT in C1.
    destruct (Hs 0%nat) as (v & Ev); [lia|]. unfold rd. rewrite (stored_nth _ _ _ Ev). cbn [bind].
    destruct (Hw0 (translation N v)) as (ms & E & Hl & Hn). rewrite E. cbn [bind].
    apply Hgen; [exact Hl|]. split; [|split; [|split]].
    - intros _ v' Hv'. unfold stored in Hv', Ev. cbn in Hv'. cbn [mats]. rewrite Hv' in Ev.
      cbn in Ev. injection Ev as <-. exact Hn.
    - intros _ v' w rest Hv'. change (stored a = v' :: w :: rest) in Hv'. rewrite Hv' in Hsl. cbn in Hsl. lia.
    - cbn [tris]. rewrite C1. intros [|k] t Ht; discriminate.
    - intros _ Hv'. change (stored a = []) in Hv'. rewrite Hv' in Hsl. cbn in Hsl. lia. }
  destruct ((numTriangles a =? 0) && (2 <=? numVertices a)) eqn:C2.
  { apply andb_true_iff in C2. destruct C2 as [C2 C3]. apply Z.eqb_eq in C2. apply Z.leb_le in C3. apply HT in C2.
    destruct (Hs 0%nat) as (v & Ev); [lia|]. destruct (Hs 1%nat) as (w & Ew); [lia|].
    unfold rd. rewrite (stored_nth _ _ _ Ev), (stored_nth _ _ _ Ew). cbn [bind].
    rewrite solve_eq. cbn [bind].
    match goal with |- context [wr _ 0 (Some ?m)] => destruct (Hw0 m) as (ms & E & Hl & Hn) end.
    rewrite E. cbn [bind]. apply Hgen; [exact Hl|]. split; [|split; [|split]].
    - intros _ v' Hv'. change (stored a = [v']) in Hv'. rewrite Hv' in Hsl. cbn in Hsl. lia.
    - intros _ v' w' rest Hv'. change (stored a = v' :: w' :: rest) in Hv'.
      rewrite Hv' in Ev, Ew. cbn in Ev, Ew. injection Ev as <-. injection Ew as <-. exact Hn.
    - cbn [tris]. rewrite C2. intros [|k] t Ht; discriminate.
    - intros _ Hv'. change (stored a = []) in Hv'. rewrite Hv' in Hsl. cbn in Hsl. lia. }
  destruct (Z.leb_spec 1 (numTriangles a)) as [C3|C3].
  { destruct (update_tris_ok x (verts a) H2 (tris a) 0 (mats a) H4) as (ms & E & Hl & _ & Hm); [lia|].
    rewrite E. cbn [bind]. apply Hgen; [lia|]. split; [|split; [|split]]; cbn [tris mats verts].
    - intros E0. apply HT in E0. lia.
    - intros E0. apply HT in E0. lia.
    - intros k t Ht. destruct (Hm k t Ht) as (m & Em & En). cbn in En. eauto.
    - intros E0. apply HT in E0. lia. }
  { destruct (Hw0 (identity N)) as (ms & E & Hl & Hn). rewrite E. cbn [bind].
    assert (T0 : numTriangles a = 0) by (unfold numTriangles in *; lia).
    rewrite T0 in C1, C2. cbn [Z.eqb andb] in C1, C2. apply Z.eqb_neq in C1. apply Z.leb_gt in C2.
    apply HT in T0. apply Hgen; [exact Hl|]. split; [|split; [|split]].
    - intros _ v' Hv'. change (stored a = [v']) in Hv'. rewrite Hv' in Hsl. cbn in Hsl. lia.
    - intros _ v' w' rest Hv'. change (stored a = v' :: w' :: rest) in Hv'. rewrite Hv' in Hsl. cbn in Hsl. lia.
    - cbn [tris]. rewrite T0. intros [|k] t Ht; discriminate.
    - intros _ _. exact Hn. }
Qed.

Lemma three_of_mono n m t : n <= m -> three_of n t -> three_of m t.
Proof. unfold three_of. lia. Qed.

Theorem triangulate_actual x j a : WF a ->
  (exists a', TriangulateActual N (Ok x) (Some j) a = Ok a' /\ WF a' /\
     numVertices a' = numVertices a /\ stored a' = stored a /\
     (0 < numVertices a -> Forall (three_of (numVertices a)) (tris a') /\
        exists s0 s1 s2, triangulate N (Some j) (map actual (stored a)) = Ok (tris a', (s0, s1, s2)) /\
        let n := Z.to_nat (numVertices a) in
        exists r0 r1 r2, nth_error (verts a') n = Some (VP s0 r0) /\
          nth_error (verts a') (n + 1) = Some (VP s1 r1) /\ nth_error (verts a') (n + 2) = Some (VP s2 r2)) /\
     (numVertices a = 0 -> tris a' = tris a) /\ mats_spec x a') \/
  (0 < numVertices a /\ triangulate N (Some j) (map actual (stored a)) = UB OobWrite /\
   TriangulateActual N (Ok x) (Some j) a = UB OobWrite).
Proof.
  intros HW. pose proof HW as (H1 & H2 & H3 & H4 & H5). unfold TriangulateActual.
  destruct (Z.ltb_spec 0 (numVertices a)) as [Hn|Hn].
  2:{ left. cbn [bind]. destruct (update_ok x a HW) as (a' & E & HW' & En & Ev & Et & Hm).
      exists a'. split; [exact E|]. split; [exact HW'|]. split; [exact En|].
      split. { unfold stored. rewrite En, Ev. reflexivity. }
      split; [lia|]. split; [auto|exact Hm]. }
  fold (stored a). assert (Hne : map actual (stored a) <> []).
  { intros E. apply (f_equal (@length _)) in E. rewrite map_length, (stored_length a HW) in E. cbn in E. lia. }
  assert (Hlen : Z.of_nat (length (map actual (stored a))) = numVertices a).
  { rewrite map_length, (stored_length a HW). lia. }
  destruct (triangulate_ok_or_overflow N j (map actual (stored a)) Hne) as [(ts & [[s0 s1] s2] & E & Ht)|E].
  2:{ right. rewrite E. auto. }
  left. rewrite E. cbn [bind].
  set (n := Z.to_nat (numVertices a)).
  destruct (set_actual_ok (verts a) n s0) as (m1 & E1 & L1 & F1 & O1 & r0 & V1); [lia|]. rewrite E1. cbn [bind].
  destruct (set_actual_ok m1 (n + 1) s1) as (m2 & E2 & L2 & F2 & O2 & r1 & V2); [lia|]. rewrite E2. cbn [bind].
  destruct (set_actual_ok m2 (n + 2) s2) as (m3 & E3 & L3 & F3 & O3 & r2 & V3); [lia|]. rewrite E3. cbn [bind].
  assert (Hf : firstn n m3 = firstn n (verts a)) by (rewrite F3, F2, F1 by lia; reflexivity).
  rewrite Hlen in Ht.
  assert (HWt : (length ts <= 192)%nat).
  { unfold triangulate in E. apply triangulate_length in E.
    - revert E. rewrite Hlen. unfold real_cap, MAX_ALIGNMENT_POINTS. lia.
    - rewrite Hlen. unfold real_cap, MAX_ALIGNMENT_POINTS. lia. }
  assert (HW3 : WF (Align (numVertices a) m3 ts (mats a))).
  { unfold WF. cbn [numVertices verts mats tris]. repeat split; auto; try lia.
    eapply Forall_impl; [|exact Ht]. intros t. apply three_of_mono. lia. }
  destruct (update_ok x _ HW3) as (a' & E' & HW' & En & Ev & Et & Hm).
  exists a'. split; [exact E'|]. split; [exact HW'|]. split; [exact En|].
  split. { unfold stored. rewrite En, Ev. cbn. exact Hf. }
  split. { intros _. rewrite Et. cbn [tris]. split; [exact Ht|].
    exists s0, s1, s2. split; [reflexivity|]. exists r0, r1, r2. rewrite Ev. cbn [verts].
    fold n. split; [|split].
    - rewrite O3, O2 by lia. exact V1.
    - rewrite O3 by lia. exact V2.
    - exact V3. }
  split; [lia|exact Hm].
Qed.

(** ** Histories *)
Lemma step_WF qsort x j a o a' : permuting N qsort -> WF a ->
  step N qsort (Ok x) (Some j) a o = Ok a' -> WF a'.
Proof.
  intros Hq HW. destruct o as [p r| |]; cbn [step].
  - destruct (is_dup a p) eqn:D.
    + rewrite addVertexPair_dup by exact D. cbn. intros E; injection E as <-. exact HW.
    + destruct (addVertexPair_new qsort a p r Hq HW D) as (a1 & r' & E & HW1 & _). rewrite E. cbn.
      intros E1; injection E1 as <-. exact HW1.
  - intros E; injection E as <-. apply WF_clear, HW.
  - destruct (triangulate_actual x j a HW) as [(a1 & E & HW1 & _)|(_ & _ & E)]; rewrite E; [|discriminate].
    intros E1; injection E1 as <-. exact HW1.
Qed.
Lemma run_WF qsort x j : permuting N qsort -> forall ops a a', WF a ->
  run N qsort (Ok x) (Some j) a ops = Ok a' -> WF a'.
Proof.
  intros Hq. induction ops as [|o ops IH]; intros a a' HW H; cbn [run] in H; [injection H as <-; exact HW|].
  destruct (step N qsort (Ok x) (Some j) a o) as [a1|u] eqn:E; cbn [bind] in H; [|discriminate].
  eapply IH; [|exact H]. eapply step_WF; eauto.
Qed.
End State.
