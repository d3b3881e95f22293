(** Up to three points can never overflow the triangle arrays, whatever the arithmetic does:
    every possible sequence of "inside" decisions is checked. *)
From Verif Require Import Base Num M_Linalg M_Helper M_Alignment S_Alignment P_Alignment.
From Coq Require Import Permutation.

(** The scanning loop with its decisions taken from a list. *)
Definition decide (s : list bool * list edge) (t : tri) : res (list bool * list edge * option tri) :=
  match fst s with
  | true :: ds => Ok ((ds, snd s ++ edges_of t), None)
  | false :: ds => Ok ((ds, snd s), Some t)
  | [] => Ok (([], snd s), Some t)
  end.

Fixpoint all_ds (n : nat) : list (list bool) :=
  match n with
  | O => [[]]
  | S n => map (cons true) (all_ds n) ++ map (cons false) (all_ds n)
  end.
Lemma all_ds_in ds : In ds (all_ds (length ds)).
Proof.
  induction ds as [|[] ds IH]; cbn; [auto| |]; apply in_or_app; [left|right]; apply in_map, IH.
Qed.

Definition fan_tris (i : Z) (es : list edge) : list tri := map fst (fan i (tag_edges (length es) es)).

Fixpoint check (depth : nat) (i cap : Z) (l : list tri) : bool :=
  match depth with
  | O => true
  | S d => forallb (fun ds =>
      match sweep_all decide (ds, []) l with
      | Ok ((_, es), l') =>
          let l2 := l' ++ fan_tris i es in
          (Z.of_nat (length l2) <=? cap) && check d (i + 1) cap l2
      | UB _ => false
      end) (all_ds (length l))
  end.

Lemma map_last {A B} (f : A -> B) l d : last (map f l) (f d) = f (last l d).
Proof. induction l as [|x [|y l] IH]; cbn in *; auto. Qed.
Lemma map_removelast {A B} (f : A -> B) l : removelast (map f l) = map f (removelast l).
Proof. induction l as [|x [|y l] IH]; cbn in *; auto. rewrite IH. reflexivity. Qed.

Section Small.
Context (N : Num).

Lemma sweep_decide (pts : list (point N)) xp yp nv i : Z.of_nat (length pts) = nv + 3 -> 0 <= i <= nv ->
  forall fuel s dn todo s' l', length todo = fuel ->
  scan_inv N nv i s -> Forall (fun tc => tri_ok nv i (fst tc)) todo ->
  sweep (scan_body N pts xp yp) fuel s dn todo = Ok (s', l') ->
  exists ds, length ds = fuel /\
    sweep decide fuel (ds, sc_edges s) (map fst dn) (map fst todo) = Ok (([], sc_edges s'), map fst l').
Proof.
  intros Hl Hi. induction fuel as [|fuel IH]; intros s dn todo s' l' Hf Hs Ht H.
  - destruct todo; [|discriminate]. cbn in H. injection H as <- <-. exists []. split; [reflexivity|].
    cbn. rewrite map_app. reflexivity.
  - destruct todo as [|x rest]; [discriminate|]. injection Hf as Hf. inversion Ht; subst.
    cbn [sweep] in H.
    destruct (scan_body_ok N pts xp yp nv i s x Hl Hi Hs H2) as (s1 & o & E & Hs1 & Ho).
    rewrite E in H. cbn [bind] in H. destruct o as [y|].
    + destruct Ho as (Ho1 & Ho2 & Ho3).
      destruct (IH s1 (dn ++ [y]) rest s' l' eq_refl Hs1 H3 H) as (ds & Hd & E2).
      exists (false :: ds). split; [cbn; lia|]. cbn [map sweep decide fst snd bind].
      rewrite map_app in E2. cbn [map] in E2. rewrite Ho2, Ho3 in E2. exact E2.
    + destruct Ho as (Ho & _). 
      match type of H with sweep _ _ _ _ ?r = _ => set (rest' := r) in * end.
      assert (Hp : Permutation rest' rest).
      { unfold rest'. destruct rest; [constructor|]. apply swap_last_perm. }
      destruct (IH s1 dn rest' s' l') as (ds & Hd & E2); auto.
      { apply Permutation_length, Hp. }
      { eapply Permutation_Forall; [symmetry; exact Hp|exact H3]. }
      exists (true :: ds). split; [cbn; lia|]. cbn [map sweep decide fst snd bind].
      rewrite Ho in E2. rewrite <- E2. f_equal. unfold rest'.
      destruct rest as [|y rest'']; [reflexivity|].
      change (map fst (y :: rest'')) with (map (@fst tri bool) (y :: rest'')).
      cbn [map]. f_equal; [|exact (map_removelast fst (y :: rest''))].
      exact (map_last fst (y :: rest'') y).
Qed.

Lemma add_points_check cap (pts : list (point N)) nv n : forall k c emax l,
  Z.of_nat (length pts) = nv + 3 -> Z.of_nat k + Z.of_nat n <= nv -> 0 <= emax ->
  Forall (fun tc => tri_ok nv (Z.of_nat k) (fst tc)) l ->
  check n (Z.of_nat k) cap (map fst l) = true ->
  exists st, add_points N cap pts (Some c, emax, l) (map Z.of_nat (seq k n)) = Ok st.
Proof.
  induction n as [|n IH]; intros k c emax l Hl Hk Hm Ht Hc; cbn [seq map add_points]; [eauto|].
  unfold add_point. destruct (rdz_some pts (Z.of_nat k)) as (p & Ep); [lia|]. rewrite Ep; cbn [bind].
  assert (Hinv : scan_inv N nv (Z.of_nat k) (Scan (Some c) [] emax)).
  { split; [cbn; eauto|]. split; [constructor|cbn; lia]. }
  destruct (sweep_scan_ok N pts (px p) (py p) nv (Z.of_nat k) l (Scan (Some c) [] emax) Hl)
    as (s' & l' & E & Hs & Hl' & Hn); [lia|exact Hinv|exact Ht|].
  rewrite E; cbn [bind]. destruct Hs as ((c' & Hc') & Hes & Hem).
  destruct (sweep_decide pts (px p) (py p) nv (Z.of_nat k) Hl ltac:(lia) (length l) _ [] l s' l' eq_refl Hinv Ht E)
    as (ds & Hds & E2).
  cbn [check] in Hc. rewrite forallb_forall in Hc.
  specialize (Hc ds). rewrite map_length, <- Hds in Hc. specialize (Hc (all_ds_in ds)).
  unfold sweep_all in Hc. rewrite map_length in Hc. cbn [map sc_edges] in E2. rewrite E2 in Hc.
  apply andb_true_iff in Hc. destruct Hc as [Hlen Hc]. apply Z.leb_le in Hlen.
  set (es := tag_edges (length (sc_edges s')) (sc_edges s')).
  assert (Hfit : new_tris cap (Z.of_nat k) es l' = Ok (l' ++ fan (Z.of_nat k) es)).
  { apply new_tris_fits. rewrite app_length, map_length in Hlen. unfold fan_tris in Hlen. rewrite map_length in Hlen.
    unfold fan in Hlen. rewrite map_length in Hlen. fold es in Hlen. lia. }
  rewrite Hfit. cbn [bind]. rewrite Hc'. apply IH; auto.
  - lia.
  - lia.
  - replace (Z.of_nat (S k)) with (Z.of_nat k + 1) by lia. apply Forall_app. split.
    + eapply Forall_impl; [|exact Hl']. intros tc. apply tri_ok_mono.
    + apply fan_ok; [lia|]. apply tag_edges_or; [left; reflexivity|].
      eapply Forall_impl; [|exact Hes]. auto.
  - replace (Z.of_nat (S k)) with (Z.of_nat k + 1) by lia. rewrite map_app. exact Hc.
Qed.
End Small.

Lemma check_1 : check 1 0 4 [Tri 1 2 3] = true. Proof. vm_compute. reflexivity. Qed.
Lemma check_2 : check 2 0 8 [Tri 2 3 4] = true. Proof. vm_compute. reflexivity. Qed.
Lemma check_3 : check 3 0 12 [Tri 3 4 5] = true. Proof. vm_compute. reflexivity. Qed.
(* check 4 0 16 [Tri 4 5 6] is false: with four points inconsistent decisions could overflow. *)

Lemma small_fits (N : Num) j (ps : list (point N)) : (1 <= length ps <= 3)%nat ->
  exists r, triangulate N (Some j) ps = Ok r.
Proof.
  intros Hn. destruct (triangulate_ok_or_overflow N j ps) as [(ts & sv & E & _)|E].
  { destruct ps; [cbn in Hn; lia|discriminate]. }
  { eauto. }
  exfalso. unfold triangulate, triangulate_cap in E.
  destruct ps as [|p0 rest]; [cbn in Hn; lia|].
  destruct (super_vertices N p0 rest) as [[s0 s1] s2].
  set (ps := p0 :: rest) in *. set (nv := Z.of_nat (length ps)) in *.
  assert (Hc : check (length ps) 0 (real_cap nv) [Tri nv (nv + 1) (nv + 2)] = true).
  { unfold nv, real_cap, MAX_ALIGNMENT_POINTS. destruct (length ps) as [|[|[|[|m]]]]; try lia.
    - apply check_1. - apply check_2. - apply check_3. }
  destruct (add_points_check N (real_cap nv) (ps ++ [s0; s1; s2]) nv (length ps) 0 j 200
             [(Tri nv (nv + 1) (nv + 2), false)]) as ([[cc em] l] & E2).
  - rewrite app_length. cbn [length]. lia.
  - lia.
  - lia.
  - constructor; [|constructor]. unfold tri_ok, idx_ok. cbn. lia.
  - exact Hc.
  - unfold zseq in E. rewrite E2 in E. cbn [bind] in E.
    destruct (sweep_all_visit (drop_body nv) tt (map fst l)) as (xs & _ & Hv).
    assert (Hx : forall xs s, exists ks, visit (drop_body nv) s xs = Ok (tt, ks)).
    { clear. induction xs as [|x xs IH]; intros []; cbn [visit]; [eauto|]. unfold drop_body at 1.
      destruct (_ || _); cbn [bind]; destruct (IH tt) as (ks & Ek); rewrite Ek; cbn [bind]; eauto. }
    destruct (Hx xs tt) as (ks & Ek). rewrite Ek in Hv. destruct Hv as (l' & E3 & _). rewrite E3 in E. discriminate.
Qed.
