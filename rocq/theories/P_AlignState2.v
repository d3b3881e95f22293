(** Histories, idempotence and matrix selection of the Alignment object. *)
From Verif Require Import Base Num M_Linalg M_Helper M_Alignment S_Alignment P_Alignment P_AlignState.
From Coq Require Import Permutation Sorted Reals Lra.
From Flocq Require Import Core.
Open Scope Z_scope.

Section State2.
Context (N : Num).
Notation point := (point N). Notation vpair := (vpair N). Notation align := (align N). Notation F := (F N).

(** ** Histories *)
Lemma existsb_perm {A} (f : A -> bool) l l' : Permutation l l' -> existsb f l = existsb f l'.
Proof.
  induction 1; cbn; auto.
  - rewrite IHPermutation. reflexivity.
  - destruct (f x), (f y); reflexivity.
  - congruence.
Qed.

Lemma spec_points_app ops1 : forall ops2 l,
  spec_points N (ops1 ++ ops2) l = spec_points N ops2 (spec_points N ops1 l).
Proof. induction ops1 as [|[p r| |] ops1 IH]; intros ops2 l; cbn [app spec_points]; auto. Qed.

Definition hist_inv (a : align) (l : list point) : Prop :=
  WF N a /\ Permutation (map actual (stored a)) l /\ (l = [] -> tris a = []).

Lemma hist_step qsort x j a l o a' : permuting N qsort -> hist_inv a l ->
  (length (spec_points N [o] l) <= 63)%nat ->
  step N qsort (Ok x) (Some j) a o = Ok a' -> hist_inv a' (spec_points N [o] l).
Proof.
  intros Hq (HW & Hp & Ht) Hn H. pose proof (step_WF N qsort x j a o a' Hq HW H) as HW'.
  split; [exact HW'|]. destruct o as [p r| |]; cbn [step spec_points] in *.
  - assert (Hd : existsb (fun q => same N q p) l = is_dup N a p).
    { unfold is_dup. apply existsb_perm. symmetry. exact Hp. }
    rewrite Hd in *. destruct (is_dup N a p) eqn:D.
    + rewrite addVertexPair_dup in H by exact D. cbn in H. injection H as <-. auto.
    + destruct (addVertexPair_new N qsort a p r Hq HW D) as (a1 & r' & E & _ & Et & _ & _ & _ & _ & Hlt & _).
      rewrite E in H. cbn in H. injection H as <-.
      assert (Hlen : length (stored a) = length l).
      { apply Permutation_length in Hp. rewrite map_length in Hp. exact Hp. }
      rewrite (stored_length N a HW) in Hlen. rewrite app_length in Hn. cbn [length] in Hn.
      destruct HW as ((? & ?) & _).
      destruct Hlt as (_ & Hst); [lia|]. rewrite Hst. split.
      * rewrite (Permutation_map actual (Hq (stored a ++ [VP p r']))), map_app. cbn.
        apply Permutation_app_tail. exact Hp.
      * intros E0. apply (f_equal (@length _)) in E0. rewrite app_length in E0. cbn in E0. lia.
  - injection H as <-. unfold stored, clearAll. cbn. auto.
  - destruct (triangulate_actual N x j a HW) as [(a1 & E & _ & En & Es & Hpos & H0 & _)|(_ & _ & E)];
      rewrite E in H; [|discriminate].
    injection H as <-. rewrite Es. split; [exact Hp|]. intros E0. rewrite H0; [auto|].
    apply Permutation_length in Hp. rewrite map_length, (stored_length N a HW), E0 in Hp. cbn in Hp.
    destruct HW as ((? & ?) & _). lia.
Qed.

Lemma hist_run qsort x j : permuting N qsort -> forall ops a l a', hist_inv a l ->
  (forall k, (length (spec_points N (firstn k ops) l) <= 63)%nat) ->
  run N qsort (Ok x) (Some j) a ops = Ok a' -> hist_inv a' (spec_points N ops l).
Proof.
  intros Hq. induction ops as [|o ops IH]; intros a l a' Hi Hk H; cbn [run] in H.
  - injection H as <-. exact Hi.
  - destruct (step N qsort (Ok x) (Some j) a o) as [a1|u] eqn:E; cbn [bind] in H; [|discriminate].
    change (o :: ops) with ([o] ++ ops). rewrite spec_points_app.
    eapply IH; [| |exact H].
    + eapply hist_step; eauto. apply (Hk 1%nat).
    + intros k. rewrite <- spec_points_app. apply (Hk (S k)).
Qed.

Lemma hist_inv_init : hist_inv (align_init N) [].
Proof. split; [apply WF_init|]. split; [constructor|auto]. Qed.

Lemma history_points qsort x j ops a : permuting N qsort -> never_more_than N 63 ops ->
  run N qsort (Ok x) (Some j) (align_init N) ops = Ok a ->
  Permutation (map actual (stored a)) (spec_points N ops []) /\
  numVertices a = Z.of_nat (length (spec_points N ops [])).
Proof.
  intros Hq Hn H. destruct (hist_run qsort x j Hq ops _ [] a hist_inv_init Hn H) as (HW & Hp & _).
  split; [exact Hp|]. apply Permutation_length in Hp. rewrite map_length, (stored_length N a HW) in Hp.
  destruct HW as ((? & ?) & _). lia.
Qed.

(** no two stored points have the same orientation *)
Lemma spec_points_unique : (forall x y, feq N x y = feq N y x) ->
  forall ops l, ForallOrdPairs (fun p q => same N p q = false) l ->
  ForallOrdPairs (fun p q => same N p q = false) (spec_points N ops l).
Proof.
  intros Hs. induction ops as [|[p r| |] ops IH]; intros l Hl; cbn [spec_points]; auto.
  - apply IH. destruct (existsb (fun q => same N q p) l) eqn:E; [exact Hl|].
    clear IH. induction Hl as [|q l Hq Hl IHl]; cbn [app]; [repeat constructor|].
    cbn in E. apply orb_false_iff in E. destruct E as [E1 E2]. constructor.
    + apply Forall_app. split; [exact Hq|]. constructor; [exact E1|constructor].
    + apply IHl, E2.
  - apply IH. constructor.
Qed.
Lemma FOP_perm {A} (R : A -> A -> Prop) : (forall x y, R x y -> R y x) ->
  forall l l', Permutation l l' -> ForallOrdPairs R l -> ForallOrdPairs R l'.
Proof.
  intros Hs. induction 1 as [|x l l' H IH|x y l|]; intros HF; auto.
  - inversion HF; subst. constructor; [|auto]. eapply Permutation_Forall; eauto.
  - inversion HF as [|? ? H1 H2]; subst. inversion H2 as [|? ? H3 H4]; subst. inversion H1; subst.
    constructor; [constructor; auto|]. constructor; auto.
Qed.
Lemma history_unique qsort x j ops a : (forall x y, feq N x y = feq N y x) ->
  permuting N qsort -> never_more_than N 63 ops ->
  run N qsort (Ok x) (Some j) (align_init N) ops = Ok a ->
  ForallOrdPairs (fun p q => same N p q = false) (map actual (stored a)).
Proof.
  intros Hs Hq Hn H. destruct (history_points qsort x j ops a Hq Hn H) as [Hp _].
  eapply FOP_perm; [| symmetry; exact Hp |].
  - intros p q. unfold same. rewrite (Hs (px p)), (Hs (py p)). auto.
  - apply spec_points_unique; [exact Hs|constructor].
Qed.

(** sorted by azimuth, in every history *)
Lemma history_sorted qsort x j : sorting N qsort -> weak_order N ->
  forall ops a a', WF N a -> StronglySorted (by_azimuth N) (stored a) ->
  run N qsort (Ok x) (Some j) a ops = Ok a' -> StronglySorted (by_azimuth N) (stored a').
Proof.
  intros [Hq Hs] Hw. induction ops as [|o ops IH]; intros a a' HW Hst H; cbn [run] in H.
  - injection H as <-. exact Hst.
  - destruct (step N qsort (Ok x) (Some j) a o) as [a1|u] eqn:E; cbn [bind] in H; [|discriminate].
    eapply IH; [eapply step_WF; eauto| |exact H]. clear IH H.
    destruct o as [p r| |]; cbn [step] in E.
    + destruct (is_dup N a p) eqn:D.
      * rewrite addVertexPair_dup in E by exact D. cbn in E. injection E as <-. exact Hst.
      * destruct (addVertexPair_new N qsort a p r Hq HW D) as (a2 & r' & E2 & _ & _ & _ & _ & _ & _ & Hlt & Heq).
        rewrite E2 in E. cbn in E. injection E as <-. destruct HW as ((? & ?) & _).
        assert (numVertices a < 63 \/ numVertices a = 63) as [Hc|Hc] by lia.
        -- destruct (Hlt Hc) as [_ E3]. rewrite E3. apply Hs, Hw.
        -- destruct (Heq Hc) as [_ E3]. rewrite E3. constructor.
    + injection E as <-. unfold stored, clearAll. cbn. constructor.
    + destruct (triangulate_actual N x j a HW) as [(a2 & E2 & _ & _ & Es & _)|(_ & _ & E2)]; rewrite E2 in E; [|discriminate].
      injection E as <-. rewrite Es. exact Hst.
Qed.

(** every stored pair was given, up to the unwrapping of its reference azimuth *)
Lemma history_pairs qsort x j : permuting N qsort -> forall ops a a', WF N a ->
  run N qsort (Ok x) (Some j) a ops = Ok a' ->
  forall v, In v (stored a') -> In v (stored a) \/
    exists p r, In (Add p r) ops /\ actual v = p /\ unwrapped N r (reference v).
Proof.
  intros Hq. induction ops as [|o ops IH]; intros a a' HW H v Hv; cbn [run] in H.
  - injection H as <-. auto.
  - destruct (step N qsort (Ok x) (Some j) a o) as [a1|u] eqn:E; cbn [bind] in H; [|discriminate].
    destruct (IH a1 a' (step_WF N _ _ _ _ _ _ Hq HW E) H v Hv) as [H1|(p & r & Hin & Hr)].
    2:{ right. exists p, r. split; [right; exact Hin|exact Hr]. }
    destruct o as [p r| |]; cbn [step] in E.
    + destruct (is_dup N a p) eqn:D.
      * rewrite addVertexPair_dup in E by exact D. cbn in E. injection E as <-. auto.
      * destruct (addVertexPair_new N qsort a p r Hq HW D) as (a2 & r' & E2 & _ & _ & _ & Hu & _ & _ & Hlt & Heq).
        rewrite E2 in E. cbn in E. injection E as <-. destruct HW as ((? & ?) & _).
        assert (numVertices a < 63 \/ numVertices a = 63) as [Hc|Hc] by lia.
        -- destruct (Hlt Hc) as [_ E3]. rewrite E3 in H1. apply (Permutation_in _ (Hq _)) in H1.
           apply in_app_or in H1. destruct H1 as [H1|[<-|[]]]; [auto|]. right. exists p, r.
           split; [left; reflexivity|]. cbn. auto.
        -- destruct (Heq Hc) as [_ E3]. rewrite E3 in H1. destruct H1.
    + injection E as <-. unfold stored, clearAll in H1. cbn in H1. destruct H1.
    + destruct (triangulate_actual N x j a HW) as [(a2 & E2 & _ & _ & Es & _)|(_ & _ & E2)]; rewrite E2 in E; [|discriminate].
      injection E as <-. rewrite Es in H1. auto.
Qed.

(** ** Triangles after a triangulation *)
Lemma no_three_of t n : n < 3 -> ~ three_of n t.
Proof. unfold three_of. lia. Qed.
Lemma run_app qsort m9 junk ops1 : forall ops2 a,
  run N qsort m9 junk a (ops1 ++ ops2) = bind (run N qsort m9 junk a ops1) (fun a' => run N qsort m9 junk a' ops2).
Proof.
  induction ops1 as [|o ops1 IH]; intros ops2 a; cbn [app run bind]; [reflexivity|].
  destruct (step N qsort m9 junk a o); cbn [bind]; auto.
Qed.
Lemma spec_points_never ops k n : never_more_than N n ops -> never_more_than N n (firstn k ops).
Proof. intros H i. rewrite firstn_firstn. apply H. Qed.

Lemma history_triangles qsort x j ops a : permuting N qsort -> never_more_than N 63 ops ->
  run N qsort (Ok x) (Some j) (align_init N) (ops ++ [Triangulate]) = Ok a ->
  Forall (three_of (numVertices a)) (tris a) /\ (numVertices a < 3 -> tris a = []).
Proof.
  intros Hq Hn H. rewrite run_app in H.
  destruct (run N qsort (Ok x) (Some j) (align_init N) ops) as [a0|u] eqn:E; cbn [bind run step] in H; [|discriminate].
  destruct (hist_run qsort x j Hq ops _ [] a0 hist_inv_init Hn E) as (HW & Hp & Ht).
  destruct (triangulate_actual N x j a0 HW) as [(a1 & E1 & HW1 & En & Es & Hpos & H0 & _)|(_ & _ & E1)];
    rewrite E1 in H; cbn [bind] in H; [|discriminate]. injection H as <-.
  destruct (Z.eq_dec (numVertices a0) 0) as [Hz|Hz].
  - rewrite (H0 Hz). assert (El : spec_points N ops [] = []).
    { apply length_zero_iff_nil. rewrite <- (Permutation_length Hp), map_length, (stored_length N a0 HW), Hz. reflexivity. }
    rewrite (Ht El). split; [constructor|reflexivity].
  - destruct HW as ((? & ?) & _). destruct Hpos as [Hf _]; [lia|]. rewrite En. split; [exact Hf|].
    intros Hlt. destruct (tris a1) as [|t l]; [reflexivity|]. inversion Hf; subst. exfalso. eapply no_three_of; eauto.
Qed.

Lemma history_safe qsort x j ops : permuting N qsort ->
  (exists a, run N qsort (Ok x) (Some j) (align_init N) ops = Ok a) \/
  run N qsort (Ok x) (Some j) (align_init N) ops = UB OobWrite.
Proof.
  intros Hq. generalize (WF_init N). generalize (align_init N) as a.
  induction ops as [|o ops IH]; intros a HW; cbn [run]; [left; eauto|].
  destruct (step N qsort (Ok x) (Some j) a o) as [a1|u] eqn:E; cbn [bind].
  - apply IH. eapply step_WF; eauto.
  - right. destruct o as [p r| |]; cbn [step] in E.
    + destruct (is_dup N a p) eqn:D.
      * rewrite addVertexPair_dup in E by exact D. discriminate.
      * destruct (addVertexPair_new N qsort a p r Hq HW D) as (a2 & r' & E2 & _). rewrite E2 in E. discriminate.
    + discriminate.
    + destruct (triangulate_actual N x j a HW) as [(a2 & E2 & _)|(_ & _ & E2)]; rewrite E2 in E; [discriminate|].
      injection E as <-. reflexivity.
Qed.

(** ** Idempotence *)
Lemma update_tris_same x vs : forall ts i ms,
  (forall k t, nth_error ts k = Some t -> exists m, tri_solution N x vs t = Ok m /\ nth_error ms (i + k) = Some (Some m)) ->
  update_tris N (Ok x) vs ts i ms = Ok ms.
Proof.
  induction ts as [|t ts IH]; intros i ms H; cbn [update_tris]; [reflexivity|].
  destruct (H 0%nat t eq_refl) as (m & Em & En). unfold tri_solution in Em.
  destruct (rdz vs (t1 t)) as [a|]; cbn [bind] in *; [|discriminate].
  destruct (rdz vs (t2 t)) as [b|]; cbn [bind] in *; [|discriminate].
  destruct (rdz vs (t3 t)) as [c|]; cbn [bind] in *; [|discriminate].
  injection Em as Em. rewrite solve_eq. cbn [bind]. rewrite Em. unfold wr.
  rewrite Nat.add_0_r in En. rewrite (upd_same _ _ _ En). cbn [bind].
  apply IH. intros k t' Ht'. destruct (H (S k) t' Ht') as (m' & Em' & En'). exists m'. split; [exact Em'|].
  rewrite <- En'. f_equal. lia.
Qed.

Lemma update_same x a : WF N a -> mats_spec N x a -> updateTransformationMatrices N (Ok x) a = Ok a.
Proof.
  intros HW (S1 & S2 & S3 & S4). pose proof (stored_length N a HW) as Hsl.
  destruct HW as (H1 & H2 & H3 & H4 & H5). unfold updateTransformationMatrices.
  assert (HT : numTriangles a = 0 <-> tris a = []).
  { unfold numTriangles. destruct (tris a); cbn [length]; split; intros E; [reflexivity|reflexivity|lia|discriminate]. }
  assert (Ha : Align (numVertices a) (verts a) (tris a) (mats a) = a) by (destruct a; reflexivity).
  destruct ((numTriangles a =? 0) && (numVertices a =? 1)) eqn:C1.
  { apply andb_true_iff in C1. destruct C1 as [C1 C2]. apply Z.eqb_eq in C1, C2. apply HT in C1.
    destruct (stored a) as [|v [|w l]] eqn:Es; cbn [length] in Hsl; try lia.
    assert (E0 : nth_error (verts a) 0 = Some v) by (apply stored_nth; rewrite Es; reflexivity).
    unfold rd. rewrite E0. cbn [bind]. unfold wr. rewrite (upd_same _ _ _ (S1 C1 v eq_refl)). cbn [bind]. rewrite Ha. reflexivity. }
  destruct ((numTriangles a =? 0) && (2 <=? numVertices a)) eqn:C2.
  { apply andb_true_iff in C2. destruct C2 as [C2 C3]. apply Z.eqb_eq in C2. apply Z.leb_le in C3. apply HT in C2.
    destruct (stored a) as [|v [|w l]] eqn:Es; cbn [length] in Hsl; try lia.
    assert (E0 : nth_error (verts a) 0 = Some v) by (apply stored_nth; rewrite Es; reflexivity).
    assert (E1 : nth_error (verts a) 1 = Some w) by (apply stored_nth; rewrite Es; reflexivity).
    unfold rd. rewrite E0, E1. cbn [bind]. rewrite solve_eq. cbn [bind].
    unfold wr. rewrite (upd_same _ _ _ (S2 C2 v w l eq_refl)). cbn [bind]. rewrite Ha. reflexivity. }
  destruct (Z.leb_spec 1 (numTriangles a)) as [C3|C3].
  { rewrite update_tris_same by exact S3. cbn [bind]. rewrite Ha. reflexivity. }
  assert (T0 : numTriangles a = 0) by (unfold numTriangles in *; lia).
  rewrite T0 in C1, C2. cbn [Z.eqb andb] in C1, C2. apply Z.eqb_neq in C1. apply Z.leb_gt in C2.
  apply HT in T0. destruct (stored a) as [|v l] eqn:Es; cbn [length] in Hsl; [|lia].
  unfold wr. rewrite (upd_same _ _ _ (S4 T0 eq_refl)). cbn [bind]. rewrite Ha. reflexivity.
Qed.

Lemma triangulate_idempotent x j a a' : WF N a ->
  TriangulateActual N (Ok x) (Some j) a = Ok a' -> TriangulateActual N (Ok x) (Some j) a' = Ok a'.
Proof.
  intros HW H. destruct (triangulate_actual N x j a HW) as [(a1 & E & HW1 & En & Es & Hpos & H0 & Hm)|(_ & _ & E)];
    rewrite E in H; [|discriminate]. injection H as <-.
  unfold TriangulateActual. destruct (Z.ltb_spec 0 (numVertices a1)) as [Hn|Hn].
  - destruct Hpos as (_ & s0 & s1 & s2 & Et & r0 & r1 & r2 & V0 & V1 & V2); [lia|].
    fold (stored a1). rewrite Es, Et. cbn [bind]. rewrite En.
    rewrite (set_actual_same N _ _ _ _ V0). cbn [bind]. rewrite (set_actual_same N _ _ _ _ V1). cbn [bind].
    rewrite (set_actual_same N _ _ _ _ V2). cbn [bind].
    replace (Align (numVertices a) (verts a1) (tris a1) (mats a1)) with a1.
    + apply update_same; assumption.
    + destruct a1; cbn in *; subst; reflexivity.
  - cbn [bind]. apply update_same; assumption.
Qed.

(** ** Which correction is used *)
Lemma nth_error_rdz {A} (l : list A) k v : nth_error l k = Some v -> rdz l (Z.of_nat k) = Ok v.
Proof.
  intros H. unfold rdz. replace (Z.of_nat k <? 0) with false by (symmetry; apply Z.ltb_ge; lia).
  unfold rd. rewrite Nat2Z.id, H. reflexivity.
Qed.

(** containment of a direction in triangle [t] as the code tests it *)
Definition contains (vs : list vpair) (p : point) (t : tri) : Prop :=
  exists a b c, rdz vs (t1 t) = Ok a /\ rdz vs (t2 t) = Ok b /\ rdz vs (t3 t) = Ok c /\
    isInTriangle N p (actual a) (actual b) (actual c) = true.

Lemma three_of_rd n vs t : Z.of_nat (length vs) >= n -> three_of n t ->
  exists a b c : vpair, rdz vs (t1 t) = Ok a /\ rdz vs (t2 t) = Ok b /\ rdz vs (t3 t) = Ok c.
Proof.
  intros Hl (K1 & K2 & K3 & _).
  destruct (rdz_some vs (t1 t)) as (a & Ea); [lia|].
  destruct (rdz_some vs (t2 t)) as (b & Eb); [lia|].
  destruct (rdz_some vs (t3 t)) as (c & Ec); [lia|]. eauto 6.
Qed.

Lemma find_containing_spec vs p n : Z.of_nat (length vs) >= n -> forall ts i,
  Forall (three_of n) ts ->
  (exists k t, find_containing N vs p ts i = Ok (Some (i + Z.of_nat k)) /\ nth_error ts k = Some t /\
      contains vs p t /\ (forall k' t', (k' < k)%nat -> nth_error ts k' = Some t' -> ~ contains vs p t')) \/
  (find_containing N vs p ts i = Ok None /\ forall t, In t ts -> ~ contains vs p t).
Proof.
  intros Hl. induction ts as [|t ts IH]; intros i Ht; cbn [find_containing].
  - right. split; [reflexivity|]. intros t [].
  - inversion Ht; subst. destruct (three_of_rd n vs t Hl H1) as (a & b & c & Ea & Eb & Ec).
    rewrite Ea, Eb, Ec. cbn [bind].
    destruct (isInTriangle N p (actual a) (actual b) (actual c)) eqn:E.
    + left. exists 0%nat, t. rewrite Z.add_0_r. split; [reflexivity|]. split; [reflexivity|].
      split; [exists a, b, c; auto|]. intros k' t' Hk. lia.
    + assert (Hnc : ~ contains vs p t).
      { intros (a' & b' & c' & Ea' & Eb' & Ec' & E'). congruence. }
      destruct (IH (i + 1) H2) as [(k & t' & Ef & En & Hc & Hf)|[Ef Hf]].
      * left. exists (S k), t'. rewrite Ef. split; [do 2 f_equal; lia|]. split; [exact En|]. split; [exact Hc|].
        intros [|k'] t'' Hk Hn; cbn in Hn; [injection Hn as <-; exact Hnc|]. eapply Hf; [|exact Hn]. lia.
      * right. split; [exact Ef|]. intros t' [<-|Hin]; auto.
Qed.

Definition dist_to (vs : list vpair) (p : point) (t : tri) (d : F) : Prop :=
  exists a b c, rdz vs (t1 t) = Ok a /\ rdz vs (t2 t) = Ok b /\ rdz vs (t3 t) = Ok c /\
    d = centroid_distance N p (actual a) (actual b) (actual c).

(** nearest_loop returns -1 or the index of a triangle *)
Lemma nearest_range vs p n : Z.of_nat (length vs) >= n -> forall ts i best idx, Forall (three_of n) ts ->
  0 <= i -> exists k, nearest_loop N vs p ts i best idx = Ok k /\ (k = idx \/ i <= k < i + Z.of_nat (length ts)).
Proof.
  intros Hl. induction ts as [|t ts IH]; intros i best idx Ht Hi; cbn [nearest_loop].
  - exists idx. auto.
  - inversion Ht; subst. destruct (three_of_rd n vs t Hl H1) as (a & b & c & Ea & Eb & Ec).
    rewrite Ea, Eb, Ec. cbn [bind length].
    match goal with |- context [if ?b then _ else _] => destruct b end.
    + destruct (IH (i + 1) (Some (centroid_distance N p (actual a) (actual b) (actual c))) i H2) as (k & E & Hk); [lia|].
      exists k. split; [exact E|]. lia.
    + destruct (IH (i + 1) best idx H2) as (k & E & Hk); [lia|]. exists k. split; [exact E|]. lia.
Qed.

Lemma rdmat_spec x a k t : mats_spec N x a -> nth_error (tris a) k = Some t ->
  exists m, tri_solution N x (verts a) t = Ok m /\ rdmat N a (Z.of_nat k) = Ok m.
Proof.
  intros (_ & _ & S3 & _) Ht. destruct (S3 k t Ht) as (m & Em & En). exists m. split; [exact Em|].
  unfold rdmat. rewrite (nth_error_rdz _ _ _ En). reflexivity.
Qed.

(** Complete description of type and matrix of a triangulated object. *)
Lemma type_and_matrix x a p : WF N a -> mats_spec N x a ->
  exists ty m, getTransformationType N a p = Ok ty /\ getTransformationMatrix N a p = Ok m /\
  match ty with
  | NONE => stored a = [] /\ tris a = [] /\ m = identity N
  | POINT => tris a = [] /\ exists v, stored a = [v] /\ m = translation N v
  | LINE => tris a = [] /\ exists v w rest, stored a = v :: w :: rest /\
       m = solve N x (line_matrix N (actual v) (actual w)) (line_matrix N (reference v) (reference w))
  | TRIANGLE_IN => exists k t, nth_error (tris a) k = Some t /\ contains (verts a) p t /\
       (forall k' t', (k' < k)%nat -> nth_error (tris a) k' = Some t' -> ~ contains (verts a) p t') /\
       tri_solution N x (verts a) t = Ok m
  | TRIANGLE_OUT => tris a <> [] /\ (forall t, In t (tris a) -> ~ contains (verts a) p t) /\
       ((nearestTriangle N a p = Ok (-1) /\ m = identity N) \/
        exists k t, nearestTriangle N a p = Ok (Z.of_nat k) /\ nth_error (tris a) k = Some t /\
           tri_solution N x (verts a) t = Ok m)
  end.
Proof.
  intros HW Hm. pose proof Hm as (S1 & S2 & S3 & S4). pose proof (stored_length N a HW) as Hsl.
  destruct HW as (H1 & H2 & H3 & H4 & H5).
  unfold getTransformationType, getTransformationMatrix.
  assert (HT : numTriangles a = 0 <-> tris a = []).
  { unfold numTriangles. destruct (tris a); cbn [length]; split; intros E; [reflexivity|reflexivity|lia|discriminate]. }
  destruct ((numTriangles a =? 0) && (numVertices a =? 1)) eqn:C1.
  { apply andb_true_iff in C1. destruct C1 as [C1 C2]. apply Z.eqb_eq in C1, C2. apply HT in C1.
    destruct (stored a) as [|v [|w l]] eqn:Es; cbn [length] in Hsl; try lia.
    exists POINT, (translation N v). split; [reflexivity|]. split; [|eauto].
    unfold rdmat. change 0 with (Z.of_nat 0). rewrite (nth_error_rdz _ _ _ (S1 C1 v eq_refl)). reflexivity. }
  destruct ((numTriangles a =? 0) && (2 <=? numVertices a)) eqn:C2.
  { apply andb_true_iff in C2. destruct C2 as [C2 C3]. apply Z.eqb_eq in C2. apply Z.leb_le in C3. apply HT in C2.
    destruct (stored a) as [|v [|w l]] eqn:Es; cbn [length] in Hsl; try lia.
    eexists LINE, _. split; [reflexivity|]. split.
    - unfold rdmat. change 0 with (Z.of_nat 0). rewrite (nth_error_rdz _ _ _ (S2 C2 v w l eq_refl)). reflexivity.
    - split; [exact C2|]. exists v, w, l. auto. }
  destruct (Z.leb_spec 1 (numTriangles a)) as [C3|C3].
  { destruct (find_containing_spec (verts a) p 64 ltac:(lia) (tris a) 0 H4) as [(k & t & Ef & En & Hc & Hf)|[Ef Hf]].
    - rewrite Ef. cbn [bind]. destruct (rdmat_spec x a k t Hm En) as (m & Em & Er).
      exists TRIANGLE_IN, m. split; [reflexivity|]. split; [rewrite Z.add_0_l; exact Er|]. exists k, t. auto.
    - rewrite Ef. cbn [bind]. unfold nearestTriangle.
      destruct (nearest_range (verts a) p 64 ltac:(lia) (tris a) 0 None (-1) H4) as (k & En & Hk); [lia|].
      rewrite En. cbn [bind].
      assert (Hne : tris a <> []) by (intros E; apply HT in E; lia).
      destruct Hk as [ -> |Hk].
      + eexists TRIANGLE_OUT, _. split; [reflexivity|]. split; [reflexivity|]. auto.
      + destruct (nth_error (tris a) (Z.to_nat k)) as [t|] eqn:Et.
        2:{ apply nth_error_None in Et. lia. }
        destruct (rdmat_spec x a _ t Hm Et) as (m & Em & Er).
        replace (0 <=? k) with true by (symmetry; apply Z.leb_le; lia).
        exists TRIANGLE_OUT, m. split; [reflexivity|].
        split; [rewrite <- Er; f_equal; lia|]. split; [exact Hne|]. split; [exact Hf|]. right.
        exists (Z.to_nat k), t. split; [f_equal; lia|]. auto. }
  assert (T0 : numTriangles a = 0) by (unfold numTriangles in *; lia).
  rewrite T0 in C1, C2. cbn [Z.eqb andb] in C1, C2. apply Z.eqb_neq in C1. apply Z.leb_gt in C2.
  apply HT in T0. destruct (stored a) as [|v l] eqn:Es; cbn [length] in Hsl; [|lia].
  exists NONE, (identity N). auto.
Qed.
End State2.

(** ** Nearest triangle in exact arithmetic *)
Lemma Rlt_bool_iff x y : Rlt_bool x y = true <-> (x < y)%R.
Proof. destruct (Rlt_bool_spec x y); split; intros; auto; try discriminate; lra. Qed.
Lemma Rlt_bool_niff x y : Rlt_bool x y = false <-> (y <= x)%R.
Proof. destruct (Rlt_bool_spec x y); split; intros; auto; try discriminate; lra. Qed.
Lemma Rle_bool_iff x y : Rle_bool x y = true <-> (x <= y)%R.
Proof. destruct (Rle_bool_spec x y); split; intros; auto; try discriminate; lra. Qed.
Lemma Req_bool_iff x y : Req_bool x y = true <-> x = y.
Proof. destruct (Req_bool_spec x y); split; intros; auto; try discriminate; lra. Qed.

Lemma nearest_loop_R vs p n : Z.of_nat (length vs) >= n -> forall ts i best idx,
  Forall (three_of n) ts ->
  exists k, nearest_loop NumR vs p ts i best idx = Ok k /\
    ((k = idx /\ (forall t d, In t ts -> dist_to NumR vs p t d -> exists m, best = Some m /\ (m <= d)%R)) \/
     exists j t d, k = i + Z.of_nat j /\ nth_error ts j = Some t /\ dist_to NumR vs p t d /\
       (forall m, best = Some m -> (d < m)%R) /\
       (forall t' d', In t' ts -> dist_to NumR vs p t' d' -> (d <= d')%R)).
Proof.
  intros Hl. induction ts as [|t ts IH]; intros i best idx Ht; cbn [nearest_loop].
  - exists idx. split; [reflexivity|]. left. split; [reflexivity|]. intros t d [].
  - inversion Ht; subst. destruct (three_of_rd NumR n vs t Hl H1) as (a & b & c & Ea & Eb & Ec).
    rewrite Ea, Eb, Ec. cbn [bind]. set (d0 := centroid_distance NumR p (actual a) (actual b) (actual c)).
    assert (Hd0 : forall d, dist_to NumR vs p t d <-> d = d0).
    { intros d. split.
      - intros (a' & b' & c' & Ea' & Eb' & Ec' & ->). rewrite Ea in Ea'. rewrite Eb in Eb'. rewrite Ec in Ec'.
        injection Ea' as <-. injection Eb' as <-. injection Ec' as <-. reflexivity.
      - intros ->. exists a, b, c. auto. }
    clearbody d0.
    assert (Hcase : (match best with None => flt_inf NumR d0 | Some m => flt NumR d0 m end) = true /\
                      (forall m, best = Some m -> (d0 < m)%R) \/
                    (match best with None => flt_inf NumR d0 | Some m => flt NumR d0 m end) = false /\
                      exists m, best = Some m /\ (m <= d0)%R).
    { destruct best as [m|]; cbn.
      - destruct (Rlt_bool_spec d0 m); [left; split; [reflexivity|intros m' E; injection E as <-; assumption]|right; split; [reflexivity|eauto]].
      - left. split; [reflexivity|discriminate]. }
    destruct Hcase as [[E Hm]|[E (m & Em & Hm)]]; rewrite E.
    + destruct (IH (i + 1) (Some d0) i H2) as (k & Ek & [(-> & Hall)|(j & t' & d' & -> & Hn & Hd & Hb & Hall)]).
      * exists i. split; [exact Ek|]. right. exists 0%nat, t, d0. split; [lia|]. split; [reflexivity|].
        split; [apply Hd0; reflexivity|]. split; [exact Hm|].
        intros t' d' [<-|Hin] Hd'; [apply Hd0 in Hd'; lra|].
        destruct (Hall t' d' Hin Hd') as (m' & E' & Hle). injection E' as <-. exact Hle.
      * exists (i + 1 + Z.of_nat j). split; [exact Ek|]. right. exists (S j), t', d'. split; [lia|].
        split; [exact Hn|]. split; [exact Hd|]. specialize (Hb d0 eq_refl). split.
        { intros m Em. specialize (Hm m Em). lra. }
        intros t'' d'' [<-|Hin] Hd''; [apply Hd0 in Hd''; lra|eauto].
    + destruct (IH (i + 1) best idx H2) as (k & Ek & [(-> & Hall)|(j & t' & d' & -> & Hn & Hd & Hb & Hall)]).
      * exists idx. split; [exact Ek|]. left. split; [reflexivity|].
        intros t' d' [<-|Hin] Hd'; [apply Hd0 in Hd'; subst; eauto|eauto].
      * exists (i + 1 + Z.of_nat j). split; [exact Ek|]. right. exists (S j), t', d'. split; [lia|].
        split; [exact Hn|]. split; [exact Hd|]. split; [exact Hb|].
        intros t'' d'' [<-|Hin] Hd''; [apply Hd0 in Hd''; specialize (Hb m Em); lra|eauto].
Qed.

Lemma nearestTriangle_R (a : align NumR) p : WF NumR a -> tris a <> [] ->
  exists k t d, nearestTriangle NumR a p = Ok (Z.of_nat k) /\ nth_error (tris a) k = Some t /\
    dist_to NumR (verts a) p t d /\
    (forall t' d', In t' (tris a) -> dist_to NumR (verts a) p t' d' -> (d <= d')%R).
Proof.
  intros (H1 & H2 & H3 & H4 & H5) Hne. unfold nearestTriangle.
  destruct (nearest_loop_R (verts a) p 64 ltac:(lia) (tris a) 0 None (-1) H4)
    as (k & Ek & [(-> & Hall)|(j & t & d & -> & Hn & Hd & _ & Hall)]).
  - exfalso. destruct (tris a) as [|t l] eqn:E; [contradiction|]. inversion H4; subst.
    destruct (three_of_rd NumR 64 (verts a) t ltac:(lia) H6) as (x & y & z & Ex & Ey & Ez).
    destruct (Hall t _ (or_introl eq_refl) ltac:(exists x, y, z; eauto)) as (m & Em & _). discriminate.
  - exists j, t, d. rewrite Ek, Z.add_0_l. auto.
Qed.
