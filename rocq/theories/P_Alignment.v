(** Structural lemmas about the triangulation, valid for every arithmetic. *)
From Verif Require Import Base Num M_Linalg M_Helper M_Alignment.
From Coq Require Import Permutation.

(** ** The swap-removal loop visits every element exactly once, in some order. *)
Section Visit.
Context {A S : Type} (f : S -> A -> res (S * option A)).

Fixpoint visit (s : S) (xs : list A) : res (S * list A) :=
  match xs with
  | [] => Ok (s, [])
  | x :: xs =>
      do '(s1, o) <- f s x;
      do '(s2, ks) <- visit s1 xs;
      Ok (s2, match o with Some y => y :: ks | None => ks end)
  end.

Lemma swap_last_perm (y : A) (l : list A) :
  Permutation (last (y :: l) y :: removelast (y :: l)) (y :: l).
Proof.
  rewrite (app_removelast_last y (l := y :: l)) at 3 by discriminate.
  apply Permutation_cons_append.
Qed.

Lemma sweep_visit fuel : forall s done todo, length todo = fuel ->
  exists xs, Permutation xs todo /\
    match visit s xs with
    | Ok (s', ks) => exists l', sweep f fuel s done todo = Ok (s', l') /\ Permutation l' (done ++ ks)
    | UB u => sweep f fuel s done todo = UB u
    end.
Proof.
  induction fuel as [|fuel IH]; intros s done todo Hl.
  - destruct todo; [|discriminate]. exists []. split; [constructor|]. cbn.
    eexists; split; [reflexivity|]. apply Permutation_refl.
  - destruct todo as [|x rest]; [discriminate|]. injection Hl as Hl.
    destruct (f s x) as [[s1 [x'|]]|u] eqn:E.
    + destruct (IH s1 (done ++ [x']) rest Hl) as (xs & Hp & H).
      exists (x :: xs). split; [constructor; exact Hp|].
      cbn [visit sweep]. rewrite E. cbn [bind].
      destruct (visit s1 xs) as [[s2 ks]|u]; cbn [bind].
      * destruct H as (l' & Hs & Hl'). exists l'. split; [exact Hs|].
        rewrite Hl', <- app_assoc. reflexivity.
      * exact H.
    + assert (Hlen : length (match rest with [] => [] | y :: _ => last rest y :: removelast rest end) = fuel).
      { destruct rest as [|y rest']; [exact Hl|]. rewrite <- Hl.
        apply Permutation_length, swap_last_perm. }
      destruct (IH s1 done _ Hlen) as (xs & Hp & H).
      exists (x :: xs). split.
      { constructor. etransitivity; [exact Hp|]. destruct rest as [|y rest']; [reflexivity|].
        apply swap_last_perm. }
      cbn [visit sweep]. rewrite E. cbn [bind].
      destruct (visit s1 xs) as [[s2 ks]|u]; cbn [bind]; exact H.
    + exists (x :: rest). split; [reflexivity|]. cbn [visit sweep]. rewrite E. reflexivity.
Qed.

Lemma sweep_all_visit s l :
  exists xs, Permutation xs l /\
    match visit s xs with
    | Ok (s', ks) => exists l', sweep_all f s l = Ok (s', l') /\ Permutation l' ks
    | UB u => sweep_all f s l = UB u
    end.
Proof. apply (sweep_visit (length l) s [] l eq_refl). Qed.

Lemma visit_inv (Inv : S -> Prop) (P Q : A -> Prop) :
  (forall s x, Inv s -> P x -> exists s' o, f s x = Ok (s', o) /\ Inv s' /\
      match o with Some y => Q y | None => True end) ->
  forall xs s, Inv s -> Forall P xs ->
    exists s' ks, visit s xs = Ok (s', ks) /\ Inv s' /\ Forall Q ks.
Proof.
  intros Hf. induction xs as [|x xs IH]; intros s Hs Hx; cbn [visit].
  - exists s, []. auto.
  - inversion Hx; subst.
    destruct (Hf s x Hs H1) as (s1 & o & E & Hs1 & Ho). rewrite E; cbn [bind].
    destruct (IH s1 Hs1 H2) as (s2 & ks & E2 & Hs2 & Hk). rewrite E2; cbn [bind].
    eexists _, _. split; [reflexivity|]. split; [exact Hs2|].
    destruct o; auto.
Qed.

Lemma sweep_all_inv (Inv : S -> Prop) (P Q : A -> Prop) :
  (forall s x, Inv s -> P x -> exists s' o, f s x = Ok (s', o) /\ Inv s' /\
      match o with Some y => Q y | None => True end) ->
  forall l s, Inv s -> Forall P l ->
    exists s' l', sweep_all f s l = Ok (s', l') /\ Inv s' /\ Forall Q l'.
Proof.
  intros Hf l s Hs Hl. destruct (sweep_all_visit s l) as (xs & Hp & H).
  destruct (visit_inv Inv P Q Hf xs s Hs) as (s' & ks & E & Hs' & Hk).
  { eapply Permutation_Forall; [symmetry; exact Hp|exact Hl]. }
  rewrite E in H. destruct H as (l' & E' & Hp'). exists s', l'. repeat split; auto.
  eapply Permutation_Forall; [symmetry; exact Hp'|exact Hk].
Qed.
End Visit.

Lemma rdz_ok {A} (l : list A) i d : 0 <= i < Z.of_nat (length l) -> rdz l i = Ok (nth (Z.to_nat i) l d).
Proof.
  intros H. unfold rdz. replace (i <? 0) with false by (symmetry; apply Z.ltb_ge; lia).
  apply rd_inb. lia.
Qed.
Lemma rdz_some {A} (l : list A) i : 0 <= i < Z.of_nat (length l) -> exists x, rdz l i = Ok x.
Proof.
  intros H. destruct l as [|d l']; [cbn in H; lia|]. eexists. apply (rdz_ok _ _ d H).
Qed.

Lemma filter_length_le {A} (f : A -> bool) l : (length (filter f l) <= length l)%nat.
Proof. induction l as [|a l IH]; cbn; [lia|]. destruct (f a); cbn; lia. Qed.

(** ** Triangles and edges *)
(** Index [k] is a point added before step [i], or one of the three supertriangle corners. *)
Definition idx_ok (nv i k : Z) : Prop := 0 <= k < i \/ nv <= k < nv + 3.
Definition tri_ok (nv i : Z) (t : tri) : Prop :=
  idx_ok nv i (t1 t) /\ idx_ok nv i (t2 t) /\ idx_ok nv i (t3 t) /\
  t1 t <> t2 t /\ t2 t <> t3 t /\ t3 t <> t1 t.
Definition edge_ok (nv i : Z) (e : edge) : Prop := idx_ok nv i (e1 e) /\ idx_ok nv i (e2 e) /\ e1 e <> e2 e.
Definition edges_of (t : tri) : list edge := [Edge (t1 t) (t2 t); Edge (t2 t) (t3 t); Edge (t3 t) (t1 t)].

Lemma edges_of_ok nv i t : tri_ok nv i t -> Forall (edge_ok nv i) (edges_of t).
Proof. intros (H1 & H2 & H3 & H4 & H5 & H6). unfold edges_of, edge_ok. repeat (apply Forall_cons; [cbn; auto|]). constructor. Qed.

(** tagging only replaces edges by the tag *)
Lemma tag_pair_or (P : edge -> Prop) a b : P tagged -> P a -> P b ->
  P (fst (tag_pair a b)) /\ P (snd (tag_pair a b)).
Proof.
  intros Ht Ha Hb. unfold tag_pair.
  destruct ((e1 a =? e2 b) && (e2 a =? e1 b)); cbn [fst snd].
  - destruct ((e1 tagged =? e1 tagged) && (e2 tagged =? e2 tagged)); cbn; auto.
  - destruct ((e1 a =? e1 b) && (e2 a =? e2 b)); cbn; auto.
Qed.
Lemma tag_row_or (P : edge -> Prop) : P tagged -> forall rest a, P a -> Forall P rest ->
  P (fst (tag_row a rest)) /\ Forall P (snd (tag_row a rest)).
Proof.
  intros Ht. induction rest as [|b rest IH]; intros a Ha Hr; cbn [tag_row]; [auto|].
  inversion Hr; subst. destruct (tag_pair a b) as [a' b'] eqn:E.
  destruct (tag_pair_or P a b Ht Ha H1) as [Ha' Hb']. rewrite E in Ha', Hb'; cbn in *.
  destruct (IH a' Ha' H2) as [Ha2 Hr2]. destruct (tag_row a' rest) as [a'' rest'']. cbn in *. auto.
Qed.
Lemma tag_row_length rest : forall a, length (snd (tag_row a rest)) = length rest.
Proof.
  induction rest as [|b rest IH]; intros a; cbn [tag_row]; [reflexivity|].
  destruct (tag_pair a b) as [a' b']. specialize (IH a'). destruct (tag_row a' rest). cbn in *. lia.
Qed.
Lemma tag_edges_length fuel : forall l, length (tag_edges fuel l) = length l.
Proof.
  induction fuel as [|fuel IH]; intros [|a rest]; cbn [tag_edges]; try reflexivity.
  pose proof (tag_row_length rest a) as H. destruct (tag_row a rest). cbn in *. rewrite IH, H. reflexivity.
Qed.
Lemma tag_edges_or (P : edge -> Prop) : P tagged -> forall fuel l, Forall P l -> Forall P (tag_edges fuel l).
Proof.
  intros Ht. induction fuel as [|fuel IH]; intros l Hl; [exact Hl|].
  destruct l as [|a rest]; [constructor|]. cbn [tag_edges]. inversion Hl; subst.
  destruct (tag_row_or P Ht rest a H1 H2) as [Ha Hr]. destruct (tag_row a rest) as [a' rest'].
  cbn in *. constructor; auto.
Qed.

(** closed form of the triangle creation loop *)
Definition live (e : edge) : bool := negb ((e1 e <? 0) || (e2 e <? 0)).
Definition fan (i : Z) (es : list edge) : list (tri * bool) :=
  map (fun e => (Tri (e1 e) (e2 e) i, false)) (filter live es).

Lemma new_tris_fits cap i es : forall l,
  Z.of_nat (length l) + Z.of_nat (length (filter live es)) <= cap ->
  new_tris cap i es l = Ok (l ++ fan i es).
Proof.
  induction es as [|e es IH]; intros l H; cbn [new_tris].
  - unfold fan; cbn. rewrite app_nil_r. reflexivity.
  - unfold fan, live in *. cbn [filter] in *. destruct ((e1 e <? 0) || (e2 e <? 0)); cbn [negb map] in *.
    + apply IH. exact H.
    + cbn [length] in H. replace (Z.of_nat (length l) <? cap) with true by (symmetry; apply Z.ltb_lt; lia).
      rewrite IH; [rewrite <- app_assoc; reflexivity|]. rewrite app_length; cbn [length]. lia.
Qed.
Lemma new_tris_overflow cap i es : forall l,
  filter live es <> [] ->
  cap < Z.of_nat (length l) + Z.of_nat (length (filter live es)) ->
  new_tris cap i es l = UB OobWrite.
Proof.
  induction es as [|e es IH]; intros l Hne H; cbn [new_tris]; [contradiction Hne; reflexivity|].
  unfold live in *. cbn [filter] in *. destruct ((e1 e <? 0) || (e2 e <? 0)); cbn [negb] in *.
  - apply IH; assumption.
  - cbn [length] in H. destruct (Z.ltb_spec (Z.of_nat (length l)) cap); [|reflexivity].
    apply IH.
    + intros E. rewrite E in H. cbn in H. lia.
    + rewrite app_length; cbn [length]. lia.
Qed.
Lemma new_tris_cases cap i es l :
  new_tris cap i es l = Ok (l ++ fan i es) \/
  (new_tris cap i es l = UB OobWrite /\ cap < Z.of_nat (length (l ++ fan i es))).
Proof.
  unfold fan. rewrite app_length, map_length.
  destruct (Z.le_gt_cases (Z.of_nat (length l) + Z.of_nat (length (filter live es))) cap) as [H|H].
  - left. apply new_tris_fits. exact H.
  - destruct (filter live es) as [|e l'] eqn:E.
    + left. clear H. cbn. rewrite app_nil_r. revert l. induction es as [|e es IH]; intros l; [reflexivity|].
      cbn [new_tris]. cbn [filter] in E. unfold live in E at 1.
      destruct ((e1 e <? 0) || (e2 e <? 0)); cbn [negb] in E; [apply IH, E | discriminate].
    + right. split; [|lia]. apply new_tris_overflow; rewrite E; [discriminate | exact H].
Qed.

Section AnyNum.
Context (N : Num).
Notation point := (point N).
Notation F := (F N).

(** The early return of CircumCircle does not depend on the tested point. *)
Definition flat (y1 y2 y3 : F) : bool :=
  flt N (fabs N (fsub N y1 y2)) (EPSILON N) && flt N (fabs N (fsub N y2 y3)) (EPSILON N).
Lemma CircumCircle_flat xp yp x1 y1 x2 y2 x3 y3 :
  flat y1 y2 y3 = true -> CircumCircle N xp yp x1 y1 x2 y2 x3 y3 = (false, None).
Proof. intros H. unfold CircumCircle. unfold flat in H. rewrite H. reflexivity. Qed.
Lemma CircumCircle_not_flat xp yp x1 y1 x2 y2 x3 y3 :
  flat y1 y2 y3 = false -> exists b c, CircumCircle N xp yp x1 y1 x2 y2 x3 y3 = (b, Some c).
Proof.
  intros H. unfold CircumCircle. unfold flat in H. rewrite H.
  destruct (flt N (fabs N (fsub N y2 y1)) (EPSILON N));
    [|destruct (flt N (fabs N (fsub N y3 y2)) (EPSILON N))]; cbv beta iota zeta;
  match goal with |- exists b c, (?x, Some ?y) = _ => exists x, y; reflexivity end.
Qed.

Lemma push3_ok es emax t : Z.of_nat (length es) <= emax ->
  exists emax', push3 (es, emax) t = Ok (es ++ edges_of t, emax') /\
                Z.of_nat (length (es ++ edges_of t)) <= emax' /\ emax <= emax'.
Proof.
  intros H. unfold push3. rewrite app_length; cbn [edges_of length].
  destruct (Z.leb_spec emax (Z.of_nat (length es) + 3)) as [Hg|Hg].
  - replace (Z.of_nat (length es) + 2 <? emax + 100) with true by (symmetry; apply Z.ltb_lt; lia).
    exists (emax + 100). split; [reflexivity|]. lia.
  - replace (Z.of_nat (length es) + 2 <? emax) with true by (symmetry; apply Z.ltb_lt; lia).
    exists emax. split; [reflexivity|]. lia.
Qed.

Lemma idx_rd (pts : list point) nv i k : Z.of_nat (length pts) = nv + 3 -> 0 <= i <= nv ->
  idx_ok nv i k -> exists p, rdz pts k = Ok p.
Proof. intros Hl Hi [H|H]; apply rdz_some; lia. Qed.

(** Invariant of the scanning loop *)
Definition scan_inv (nv i : Z) (s : scan_state N) : Prop :=
  (exists c, sc_cc s = Some c) /\ Forall (edge_ok nv i) (sc_edges s) /\
  Z.of_nat (length (sc_edges s)) <= sc_emax s.

Lemma scan_body_ok (pts : list point) xp yp nv i s tc :
  Z.of_nat (length pts) = nv + 3 -> 0 <= i <= nv ->
  scan_inv nv i s -> tri_ok nv i (fst tc) ->
  exists s' o, scan_body N pts xp yp s tc = Ok (s', o) /\ scan_inv nv i s' /\
    match o with
    | Some y => tri_ok nv i (fst y) /\ fst y = fst tc /\ sc_edges s' = sc_edges s
    | None => sc_edges s' = sc_edges s ++ edges_of (fst tc) /\ snd tc = false
    end.
Proof.
  intros Hl Hi ((c & Hc) & He & Hm) Ht. destruct tc as [t cm]. cbn [fst] in Ht.
  assert (Ht0 := Ht). destruct Ht0 as (K1 & K2 & K3 & _). unfold scan_body.
  destruct cm.
  - eexists _, _. split; [reflexivity|]. split; [split; [eauto|auto]|]. auto.
  - destruct (idx_rd pts nv i _ Hl Hi K1) as (p1 & E1). rewrite E1; cbn [bind].
    destruct (idx_rd pts nv i _ Hl Hi K2) as (p2 & E2). rewrite E2; cbn [bind].
    destruct (idx_rd pts nv i _ Hl Hi K3) as (p3 & E3). rewrite E3; cbn [bind].
    destruct (CircumCircle N xp yp (px p1) (py p1) (px p2) (py p2) (px p3) (py p3)) as [inside cc'].
    assert (Hcc : exists c', match cc' with Some _ => cc' | None => sc_cc s end = Some c')
      by (destruct cc'; eauto).
    destruct Hcc as (c' & Hcc). rewrite Hcc. destruct c' as [xc r].
    destruct inside.
    + destruct (push3_ok (sc_edges s) (sc_emax s) t Hm) as (em & Ep & Hem & _).
      rewrite Ep; cbn [bind]. eexists _, _. split; [reflexivity|]. split; [|cbn; auto].
      split; [cbn; eauto|]. split; [|exact Hem]. cbn. apply Forall_app. split; [exact He|].
      apply edges_of_ok, Ht.
    + eexists _, _. split; [reflexivity|]. split; [|cbn; auto].
      split; [cbn; eauto|]. split; [exact He|exact Hm].
Qed.

(** Number of edges collected: three per removed triangle. *)
Lemma visit_scan_ok (pts : list point) xp yp nv i :
  Z.of_nat (length pts) = nv + 3 -> 0 <= i <= nv ->
  forall xs s, scan_inv nv i s -> Forall (fun tc => tri_ok nv i (fst tc)) xs ->
  exists s' ks, visit (scan_body N pts xp yp) s xs = Ok (s', ks) /\ scan_inv nv i s' /\
    Forall (fun tc => tri_ok nv i (fst tc)) ks /\
    (length (sc_edges s') + 3 * length ks = length (sc_edges s) + 3 * length xs)%nat.
Proof.
  intros Hl Hi. induction xs as [|x xs IH]; intros s Hs Hx; cbn [visit].
  - exists s, []. split; [reflexivity|]. split; [exact Hs|]. split; [constructor|]. reflexivity.
  - inversion Hx; subst.
    destruct (scan_body_ok pts xp yp nv i s x Hl Hi Hs H1) as (s1 & o & E & Hs1 & Ho).
    rewrite E; cbn [bind].
    destruct (IH s1 Hs1 H2) as (s2 & ks & E2 & Hs2 & Hk & Hn). rewrite E2; cbn [bind].
    eexists _, _. split; [reflexivity|]. split; [exact Hs2|].
    destruct o as [y|]; destruct Ho as (Ho & Ho').
    + destruct Ho' as (_ & Ho'). split; [constructor; auto|]. cbn [length]. rewrite Ho' in Hn. lia.
    + split; [exact Hk|]. rewrite Ho, app_length in Hn. cbn [edges_of length] in *. lia.
Qed.

Lemma sweep_scan_ok (pts : list point) xp yp nv i l s :
  Z.of_nat (length pts) = nv + 3 -> 0 <= i <= nv ->
  scan_inv nv i s -> Forall (fun tc => tri_ok nv i (fst tc)) l ->
  exists s' l', sweep_all (scan_body N pts xp yp) s l = Ok (s', l') /\ scan_inv nv i s' /\
    Forall (fun tc => tri_ok nv i (fst tc)) l' /\
    (length (sc_edges s') + 3 * length l' = length (sc_edges s) + 3 * length l)%nat.
Proof.
  intros Hl Hi Hs Hx.
  destruct (sweep_all_visit (scan_body N pts xp yp) s l) as (xs & Hp & H).
  destruct (visit_scan_ok pts xp yp nv i Hl Hi xs s Hs) as (s' & ks & E & Hs' & Hk & Hn).
  { eapply Permutation_Forall; [symmetry; exact Hp|exact Hx]. }
  rewrite E in H. destruct H as (l' & E' & Hp'). exists s', l'. repeat split; auto.
  - apply Hs'.
  - apply Hs'.
  - apply Hs'.
  - eapply Permutation_Forall; [symmetry; exact Hp'|exact Hk].
  - rewrite (Permutation_length Hp'), <- (Permutation_length Hp). exact Hn.
Qed.

Lemma fan_ok nv i es : 0 <= i < nv ->
  Forall (fun e => e = tagged \/ edge_ok nv i e) es ->
  Forall (fun tc => tri_ok nv (i + 1) (fst tc)) (fan i es).
Proof.
  intros Hi H. unfold fan. apply Forall_forall. intros tc Hin.
  apply in_map_iff in Hin. destruct Hin as (e & <- & Hin).
  apply filter_In in Hin. destruct Hin as [Hin Hlive].
  rewrite Forall_forall in H. destruct (H e Hin) as [ ->|(K1 & K2 & K3)]; [discriminate|].
  unfold tri_ok, idx_ok in *; cbn. lia.
Qed.

Lemma tri_ok_mono nv i t : tri_ok nv i t -> tri_ok nv (i + 1) t.
Proof. unfold tri_ok, idx_ok. lia. Qed.

(** One point: with enough room nothing can go wrong. *)
Lemma add_point_ok cap (pts : list point) nv i c emax l :
  Z.of_nat (length pts) = nv + 3 -> 0 <= i < nv -> 0 <= emax ->
  Forall (fun tc => tri_ok nv i (fst tc)) l ->
  3 * Z.of_nat (length l) <= cap ->
  exists c' emax' l', add_point N cap pts (Some c, emax, l) i = Ok (Some c', emax', l') /\
    0 <= emax' /\ Forall (fun tc => tri_ok nv (i + 1) (fst tc)) l' /\
    Z.of_nat (length l') <= 3 * Z.of_nat (length l).
Proof.
  intros Hl Hi Hm Ht Hcap. unfold add_point.
  destruct (rdz_some pts i) as (p & Ep); [lia|]. rewrite Ep; cbn [bind].
  destruct (sweep_scan_ok pts (px p) (py p) nv i l (Scan (Some c) [] emax) Hl) as (s' & l' & E & Hs & Hl' & Hn);
    [lia | split; [cbn; eauto|split; [constructor|cbn; lia]] | exact Ht |].
  rewrite E; cbn [bind]. destruct Hs as ((c' & Hc') & Hes & Hem).
  pose proof (tag_edges_length (length (sc_edges s')) (sc_edges s')) as Htl.
  pose proof (filter_length_le live (tag_edges (length (sc_edges s')) (sc_edges s'))) as Hfl.
  cbn [sc_edges length] in Hn.
  assert (Hlen : Z.of_nat (length l') + Z.of_nat (length (filter live (tag_edges (length (sc_edges s')) (sc_edges s'))))
                 <= 3 * Z.of_nat (length l)).
  { lia. }
  rewrite new_tris_fits by lia. cbn [bind]. rewrite Hc'.
  eexists _, _, _. split; [reflexivity|]. split; [lia|]. split.
  - apply Forall_app. split.
    + eapply Forall_impl; [|exact Hl']. intros tc. apply tri_ok_mono.
    + apply fan_ok; [lia|]. apply tag_edges_or; [left; reflexivity|].
      eapply Forall_impl; [|exact Hes]. auto.
  - rewrite app_length. unfold fan. rewrite map_length. lia.
Qed.

(** One point with the real array size: the same result, or a write past the triangle arrays. *)
Lemma add_point_cap cap big (pts : list point) st i st' :
  add_point N big pts st i = Ok st' ->
  add_point N cap pts st i = Ok st' \/ add_point N cap pts st i = UB OobWrite.
Proof.
  destruct st as [[cc emax] l]. unfold add_point.
  destruct (rdz pts i) as [p|u]; cbn [bind]; [|discriminate].
  destruct (sweep_all _ _ l) as [[s l']|u]; cbn [bind]; [|discriminate].
  set (es := tag_edges _ _).
  destruct (new_tris_cases big i es l') as [E|[E _]]; rewrite E; cbn [bind]; [|discriminate].
  intros H. destruct (new_tris_cases cap i es l') as [E'|[E' _]]; rewrite E'; cbn [bind]; auto.
Qed.

Lemma add_points_cap cap big (pts : list point) : forall is st st',
  add_points N big pts st is = Ok st' ->
  add_points N cap pts st is = Ok st' \/ add_points N cap pts st is = UB OobWrite.
Proof.
  induction is as [|i is IH]; intros st st' H; cbn [add_points] in *; [auto|].
  destruct (add_point N big pts st i) as [st1|u] eqn:E; cbn [bind] in H; [|discriminate].
  destruct (add_point_cap cap big pts st i st1 E) as [E'|E']; rewrite E'; cbn [bind]; auto.
Qed.

Lemma add_points_ok cap (pts : list point) nv n : forall k c emax l,
  Z.of_nat (length pts) = nv + 3 -> Z.of_nat k + Z.of_nat n <= nv -> 0 <= emax ->
  Forall (fun tc => tri_ok nv (Z.of_nat k) (fst tc)) l ->
  3 ^ Z.of_nat n * Z.of_nat (length l) <= cap ->
  exists c' emax' l', add_points N cap pts (Some c, emax, l) (map Z.of_nat (seq k n)) = Ok (Some c', emax', l') /\
    0 <= emax' /\ Forall (fun tc => tri_ok nv (Z.of_nat (k + n)) (fst tc)) l'.
Proof.
  induction n as [|n IH]; intros k c emax l Hl Hk Hm Ht Hcap; cbn [seq map add_points].
  - rewrite Nat.add_0_r. exists c, emax, l. auto.
  - assert (H3 : 3 ^ Z.of_nat (S n) = 3 * 3 ^ Z.of_nat n).
    { rewrite Nat2Z.inj_succ, Z.pow_succ_r by lia. reflexivity. }
    assert (Hp : 0 < 3 ^ Z.of_nat n) by (apply Z.pow_pos_nonneg; lia).
    destruct (add_point_ok cap pts nv (Z.of_nat k) c emax l Hl) as (c1 & em1 & l1 & E & Hm1 & Ht1 & Hlen);
      [lia | lia | exact Ht | nia |].
    rewrite E; cbn [bind].
    destruct (IH (S k) c1 em1 l1) as (c2 & em2 & l2 & E2 & Hm2 & Ht2); auto.
    + lia.
    + replace (Z.of_nat (S k)) with (Z.of_nat k + 1) by lia. exact Ht1.
    + rewrite H3 in Hcap. nia.
    + rewrite E2. exists c2, em2, l2. split; [reflexivity|]. split; [exact Hm2|].
      replace (k + S n)%nat with (S k + n)%nat by lia. exact Ht2.
Qed.

Lemma drop_ok nv (l : list tri) : Forall (tri_ok nv nv) l ->
  exists l', sweep_all (drop_body nv) tt l = Ok (tt, l') /\
    Forall (fun t => 0 <= t1 t < nv /\ 0 <= t2 t < nv /\ 0 <= t3 t < nv /\
                     t1 t <> t2 t /\ t2 t <> t3 t /\ t3 t <> t1 t) l'.
Proof.
  intros H.
  destruct (sweep_all_inv (drop_body nv) (fun _ => True) (tri_ok nv nv)
     (fun t => 0 <= t1 t < nv /\ 0 <= t2 t < nv /\ 0 <= t3 t < nv /\
                     t1 t <> t2 t /\ t2 t <> t3 t /\ t3 t <> t1 t)) with (l := l) (s := tt)
    as (s' & l' & E & _ & Hl'); auto.
  - intros s t _ Ht. unfold drop_body.
    destruct ((nv <=? t1 t) || (nv <=? t2 t) || (nv <=? t3 t)) eqn:E.
    + eexists _, _. split; [reflexivity|]. auto.
    + eexists _, _. split; [reflexivity|]. split; [auto|].
      apply orb_false_iff in E. destruct E as [E E3]. apply orb_false_iff in E. destruct E as [E1 E2].
      apply Z.leb_gt in E1, E2, E3. unfold tri_ok, idx_ok in Ht. lia.
  - destruct s'. exists l'. auto.
Qed.

Definition proper_tri (nv : Z) (t : tri) : Prop :=
  0 <= t1 t < nv /\ 0 <= t2 t < nv /\ 0 <= t3 t < nv /\ t1 t <> t2 t /\ t2 t <> t3 t /\ t3 t <> t1 t.

(** With unlimited arrays the triangulation always succeeds and is well formed. *)
Lemma triangulate_unbounded j (ps : list point) : ps <> [] ->
  exists ts sv, triangulate_cap N (3 ^ Z.of_nat (length ps)) (Some j) ps = Ok (ts, sv) /\
    Forall (proper_tri (Z.of_nat (length ps))) ts.
Proof.
  intros Hne. destruct ps as [|p0 rest]; [contradiction|].
  unfold triangulate_cap. destruct (super_vertices N p0 rest) as [[s0 s1] s2].
  set (ps := p0 :: rest). set (n := length ps). unfold zseq.
  destruct (add_points_ok (3 ^ Z.of_nat n) (ps ++ [s0; s1; s2]) (Z.of_nat n) n 0 j 200
             [(Tri (Z.of_nat n) (Z.of_nat n + 1) (Z.of_nat n + 2), false)]) as (c & em & l & E & _ & Hl).
  - rewrite app_length. cbn [length]. fold n. lia.
  - lia.
  - lia.
  - constructor; [|constructor]. unfold tri_ok, idx_ok. cbn. lia.
  - cbn [length]. lia.
  - rewrite E. cbn [bind].
    destruct (drop_ok (Z.of_nat n) (map fst l)) as (l' & E' & Hl').
    { rewrite Forall_map. exact Hl. }
    rewrite E'. cbn [bind]. eexists _, _. split; [reflexivity|]. exact Hl'.
Qed.

Lemma triangulate_cap_cases cap big j (ps : list point) r :
  triangulate_cap N big j ps = Ok r ->
  triangulate_cap N cap j ps = Ok r \/ triangulate_cap N cap j ps = UB OobWrite.
Proof.
  unfold triangulate_cap. destruct ps as [|p0 rest]; [discriminate|].
  destruct (super_vertices N p0 rest) as [[s0 s1] s2].
  match goal with |- context [add_points N big ?pts ?st ?is] =>
    destruct (add_points N big pts st is) as [st1|u] eqn:E end; cbn [bind]; [|discriminate].
  intros H. destruct (add_points_cap cap big _ _ _ _ E) as [E'|E']; rewrite E'; cbn [bind]; auto.
Qed.

Lemma triangulate_ok_or_overflow j (ps : list point) : ps <> [] ->
  (exists ts sv, triangulate N (Some j) ps = Ok (ts, sv) /\ Forall (proper_tri (Z.of_nat (length ps))) ts) \/
  triangulate N (Some j) ps = UB OobWrite.
Proof.
  intros Hne. destruct (triangulate_unbounded j ps Hne) as (ts & sv & E & H).
  destruct (triangulate_cap_cases (real_cap (Z.of_nat (length ps))) _ _ _ _ E) as [E'|E']; [left|right]; auto.
  exists ts, sv. auto.
Qed.

(** ** Uninitialised variables *)
Definition super_flat (ps : list point) : bool :=
  match ps with
  | [] => false
  | p0 :: rest => let '(s0, s1, s2) := super_vertices N p0 rest in flat (py s0) (py s1) (py s2)
  end.

Lemma rdz_app_super (ps : list point) s0 s1 s2 :
  rdz (ps ++ [s0; s1; s2]) (Z.of_nat (length ps)) = Ok s0 /\
  rdz (ps ++ [s0; s1; s2]) (Z.of_nat (length ps) + 1) = Ok s1 /\
  rdz (ps ++ [s0; s1; s2]) (Z.of_nat (length ps) + 2) = Ok s2.
Proof.
  unfold rdz, rd.
  replace (Z.of_nat (length ps) <? 0) with false by (symmetry; apply Z.ltb_ge; lia).
  replace (Z.of_nat (length ps) + 1 <? 0) with false by (symmetry; apply Z.ltb_ge; lia).
  replace (Z.of_nat (length ps) + 2 <? 0) with false by (symmetry; apply Z.ltb_ge; lia).
  rewrite !nth_error_app2 by lia.
  replace (Z.to_nat (Z.of_nat (length ps)) - length ps)%nat with 0%nat by lia.
  replace (Z.to_nat (Z.of_nat (length ps) + 1) - length ps)%nat with 1%nat by lia.
  replace (Z.to_nat (Z.of_nat (length ps) + 2) - length ps)%nat with 2%nat by lia.
  auto.
Qed.

Lemma scan_super_first (ps : list point) s0 s1 s2 xp yp cc emax :
  let nv := Z.of_nat (length ps) in
  flat (py s0) (py s1) (py s2) = false ->
  exists c : option (F * F),
    c <> None /\
    forall cc', (cc' = cc \/ cc' <> None \/ cc' = None) ->
    scan_body N (ps ++ [s0; s1; s2]) xp yp (Scan cc' [] emax) (Tri nv (nv + 1) (nv + 2), false) =
    scan_body N (ps ++ [s0; s1; s2]) xp yp (Scan c [] emax) (Tri nv (nv + 1) (nv + 2), false).
Proof.
  intros nv Hf. unfold scan_body. cbn [t1 t2 t3].
  destruct (rdz_app_super ps s0 s1 s2) as (R0 & R1 & R2). fold nv in R0, R1, R2.
  rewrite R0, R1, R2. cbn [bind].
  destruct (CircumCircle_not_flat xp yp (px s0) (py s0) (px s1) (py s1) (px s2) (py s2) Hf) as (b & c & E).
  rewrite E. exists (Some c). split; [discriminate|]. intros cc' _. reflexivity.
Qed.

Lemma triangulate_not_flat_junk cap j1 j2 (ps : list point) :
  super_flat ps = false -> triangulate_cap N cap j1 ps = triangulate_cap N cap j2 ps.
Proof.
  intros Hf. destruct ps as [|p0 rest]; [reflexivity|]. unfold triangulate_cap, super_flat in *.
  destruct (super_vertices N p0 rest) as [[s0 s1] s2].
  set (ps := p0 :: rest) in *. set (nv := Z.of_nat (length ps)).
  assert (Hz : zseq (length ps) = 0 :: map Z.of_nat (seq 1 (length rest))) by reflexivity.
  rewrite Hz. cbn [add_points].
  assert (E : add_point N cap (ps ++ [s0; s1; s2]) (j1, 200, [(Tri nv (nv + 1) (nv + 2), false)]) 0 =
              add_point N cap (ps ++ [s0; s1; s2]) (j2, 200, [(Tri nv (nv + 1) (nv + 2), false)]) 0).
  { unfold add_point. destruct (rdz (ps ++ [s0; s1; s2]) 0) as [p|u]; [|reflexivity]. cbn [bind].
    unfold sweep_all. cbn [length sweep].
    destruct (scan_super_first ps s0 s1 s2 (px p) (py p) None 200 Hf) as (c & _ & Hc).
    fold nv in Hc. rewrite (Hc j1), (Hc j2).
    - reflexivity.
    - destruct j2; [right; left; discriminate|auto].
    - destruct j1; [right; left; discriminate|auto]. }
  rewrite E. reflexivity.
Qed.

Lemma add_point_flat cap (ps : list point) s0 s1 s2 cc emax b i :
  let nv := Z.of_nat (length ps) in
  flat (py s0) (py s1) (py s2) = true -> 0 <= i < nv ->
  match cc with
  | Some c => exists b', add_point N cap (ps ++ [s0; s1; s2]) (Some c, emax, [(Tri nv (nv + 1) (nv + 2), b)]) i =
                         Ok (Some c, emax, [(Tri nv (nv + 1) (nv + 2), b')])
  | None => b = false -> add_point N cap (ps ++ [s0; s1; s2]) (None, emax, [(Tri nv (nv + 1) (nv + 2), b)]) i = UB UninitRead
  end.
Proof.
  intros nv Hf Hi. unfold add_point.
  destruct (rdz_some (ps ++ [s0; s1; s2]) i) as (p & Ep). { rewrite app_length. cbn [length]. lia. }
  rewrite Ep. unfold sweep_all. cbn [bind length sweep scan_body t1 t2 t3].
  destruct (rdz_app_super ps s0 s1 s2) as (R0 & R1 & R2). fold nv in R0, R1, R2.
  destruct cc as [[xc r]|].
  - destruct b.
    + eexists. reflexivity.
    + rewrite R0, R1, R2. cbn [bind]. rewrite CircumCircle_flat by exact Hf. cbn [sc_cc bind].
      eexists. reflexivity.
  - intros ->. rewrite R0, R1, R2. cbn [bind]. rewrite CircumCircle_flat by exact Hf. reflexivity.
Qed.

Lemma triangulate_flat cap (ps : list point) : super_flat ps = true ->
  (forall j, exists sv, triangulate_cap N cap (Some j) ps = Ok ([], sv) /\
     sv = match ps with [] => sv | p0 :: rest => super_vertices N p0 rest end) /\
  triangulate_cap N cap None ps = UB UninitRead.
Proof.
  intros Hf. destruct ps as [|p0 rest]; [discriminate|]. unfold triangulate_cap, super_flat in *.
  destruct (super_vertices N p0 rest) as [[s0 s1] s2].
  set (ps := p0 :: rest) in *. set (nv := Z.of_nat (length ps)).
  split.
  - intros [xc r].
    assert (H : forall n k b, Z.of_nat k + Z.of_nat n <= nv -> exists b',
       add_points N cap (ps ++ [s0; s1; s2]) (Some (xc, r), 200, [(Tri nv (nv + 1) (nv + 2), b)])
         (map Z.of_nat (seq k n)) = Ok (Some (xc, r), 200, [(Tri nv (nv + 1) (nv + 2), b')])).
    { induction n as [|n IH]; intros k b Hk; cbn [seq map add_points].
      - exists b. reflexivity.
      - destruct (add_point_flat cap ps s0 s1 s2 (Some (xc, r)) 200 b (Z.of_nat k) Hf) as (b' & E).
        { fold nv. lia. }
        fold nv in E. rewrite E. cbn [bind]. apply IH. lia. }
    destruct (H (length ps) 0%nat false) as (b' & E). { unfold nv. lia. }
    unfold zseq. rewrite E. cbn [bind map fst]. unfold sweep_all. cbn [length sweep drop_body t1 t2 t3].
    unfold drop_body. cbn [t1 t2 t3]. rewrite Z.leb_refl. cbn [orb bind app].
    exists (s0, s1, s2). split; reflexivity.
  - assert (Hz : zseq (length ps) = 0 :: map Z.of_nat (seq 1 (length rest))) by reflexivity.
    rewrite Hz. cbn [add_points].
    pose proof (add_point_flat cap ps s0 s1 s2 None 200 false 0 Hf) as E. cbv beta iota zeta in E.
    fold nv in E. rewrite E; [reflexivity | unfold nv, ps; cbn [length]; lia | reflexivity].
Qed.

Lemma triangulate_junk_irrelevant cap j1 j2 (ps : list point) :
  triangulate_cap N cap (Some j1) ps = triangulate_cap N cap (Some j2) ps.
Proof.
  destruct (super_flat ps) eqn:E.
  - destruct (triangulate_flat cap ps E) as [H _].
    destruct (H j1) as (sv1 & E1 & V1), (H j2) as (sv2 & E2 & V2). rewrite E1, E2.
    destruct ps; [discriminate|]. subst. reflexivity.
  - apply triangulate_not_flat_junk. exact E.
Qed.

Lemma triangulate_strict (ps : list point) cap j :
  triangulate_cap N cap None ps =
  if super_flat ps then UB UninitRead else triangulate_cap N cap (Some j) ps.
Proof.
  destruct (super_flat ps) eqn:E.
  - apply triangulate_flat, E.
  - apply triangulate_not_flat_junk, E.
Qed.
End AnyNum.
