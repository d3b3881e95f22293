(** The edge tagging of alignment.cpp:285-305 keeps exactly the edges that occur once. *)
From Verif Require Import Base Num M_Linalg M_Helper M_Alignment P_Alignment.
From Coq Require Import Permutation.

(** Same undirected edge. *)
Definition same_e (a b : edge) : bool :=
  ((e1 a =? e1 b) && (e2 a =? e2 b)) || ((e1 a =? e2 b) && (e2 a =? e1 b)).
Definition cnt (e : edge) (l : list edge) : nat := length (filter (same_e e) l).
Definition valid (e : edge) : Prop := 0 <= e1 e /\ 0 <= e2 e /\ e1 e <> e2 e.
Definition ok_e (e : edge) : Prop := e = tagged \/ valid e.

Lemma same_e_spec a b : same_e a b = true <-> (e1 a = e1 b /\ e2 a = e2 b) \/ (e1 a = e2 b /\ e2 a = e1 b).
Proof. unfold same_e. rewrite orb_true_iff, !andb_true_iff, !Z.eqb_eq. tauto. Qed.
Lemma same_e_false a b : same_e a b = false <-> ~ ((e1 a = e1 b /\ e2 a = e2 b) \/ (e1 a = e2 b /\ e2 a = e1 b)).
Proof. rewrite <- same_e_spec. destruct (same_e a b); split; congruence. Qed.
Lemma same_e_refl a : same_e a a = true.
Proof. apply same_e_spec. auto. Qed.
Lemma same_e_sym a b : same_e a b = same_e b a.
Proof. apply eq_true_iff_eq. rewrite !same_e_spec. intuition congruence. Qed.
Lemma same_e_trans a b c : same_e a b = true -> same_e a c = same_e b c.
Proof. intros H. apply eq_true_iff_eq. rewrite same_e_spec in H. rewrite !same_e_spec. intuition congruence. Qed.
Lemma same_e_tagged a : valid a -> same_e a tagged = false.
Proof. intros H. apply same_e_false. unfold valid, tagged in *; cbn. lia. Qed.
Lemma live_valid e : valid e -> live e = true.
Proof. intros (A & B & _). unfold live. destruct (Z.ltb_spec (e1 e) 0), (Z.ltb_spec (e2 e) 0); cbn; auto; lia. Qed.
Lemma live_tagged : live tagged = false.
Proof. reflexivity. Qed.
Lemma ok_live e : ok_e e -> live e = true -> valid e.
Proof. intros [ -> |H] L; [discriminate|exact H]. Qed.

Lemma cnt_app e l1 l2 : cnt e (l1 ++ l2) = (cnt e l1 + cnt e l2)%nat.
Proof. unfold cnt. rewrite filter_app, app_length. reflexivity. Qed.
Lemma cnt_cons e x l : cnt e (x :: l) = ((if same_e e x then 1 else 0) + cnt e l)%nat.
Proof. unfold cnt. cbn [filter]. destruct (same_e e x); reflexivity. Qed.
Lemma cnt_same a b l : same_e a b = true -> cnt a l = cnt b l.
Proof.
  intros H. unfold cnt. f_equal. apply filter_ext. intros x. apply same_e_trans, H.
Qed.
Lemma cnt_perm e l l' : Permutation l l' -> cnt e l = cnt e l'.
Proof. induction 1; rewrite ?cnt_cons in *; lia. Qed.
Lemma cnt_In e l : In e l -> (1 <= cnt e l)%nat.
Proof.
  induction l as [|x l IH]; [intros []|]. rewrite cnt_cons. intros [ -> |H].
  - rewrite same_e_refl. lia.
  - specialize (IH H). lia.
Qed.
Lemma cnt_pos e l : (1 <= cnt e l)%nat -> exists x, In x l /\ same_e e x = true.
Proof.
  induction l as [|x l IH]; [cbn; lia|]. rewrite cnt_cons. destruct (same_e e x) eqn:E.
  - exists x. split; [left|]; auto.
  - intros H. destruct IH as (y & Hy & Ey); [lia|]. exists y. split; [right|]; auto.
Qed.

Lemma tag_pair_eq a b : tag_pair a b = if same_e a b then (tagged, tagged) else (a, b).
Proof.
  unfold tag_pair, same_e.
  destruct ((e1 a =? e2 b) && (e2 a =? e1 b)) eqn:E1.
  - rewrite orb_true_r. reflexivity.
  - rewrite orb_false_r. destruct ((e1 a =? e1 b) && (e2 a =? e2 b)); reflexivity.
Qed.

Lemma tag_row_tagged rest : Forall ok_e rest -> tag_row tagged rest = (tagged, rest).
Proof.
  induction 1 as [|x rest Hx _ IH]; [reflexivity|]. cbn [tag_row]. rewrite tag_pair_eq.
  destruct Hx as [ -> |Hx].
  - change (same_e tagged tagged) with true. cbn iota. rewrite IH. reflexivity.
  - rewrite same_e_sym, same_e_tagged by exact Hx. rewrite IH. reflexivity.
Qed.
Lemma tag_row_nomatch a rest : cnt a rest = 0%nat -> tag_row a rest = (a, rest).
Proof.
  induction rest as [|x rest IH]; [reflexivity|]. rewrite cnt_cons. cbn [tag_row]. rewrite tag_pair_eq.
  destruct (same_e a x); [lia|]. intros H. rewrite IH by lia. reflexivity.
Qed.
Lemma tag_row_match a r1 b r2 : cnt a r1 = 0%nat -> same_e a b = true -> Forall ok_e r2 ->
  tag_row a (r1 ++ b :: r2) = (tagged, r1 ++ tagged :: r2).
Proof.
  induction r1 as [|x r1 IH]; intros H0 H1 H2.
  - cbn [app tag_row]. rewrite tag_pair_eq, H1. rewrite tag_row_tagged by exact H2. reflexivity.
  - rewrite cnt_cons in H0. cbn [app tag_row]. rewrite tag_pair_eq. destruct (same_e a x); [lia|].
    rewrite IH by (auto; lia). reflexivity.
Qed.
Lemma first_match a l : (1 <= cnt a l)%nat -> exists r1 b r2, l = r1 ++ b :: r2 /\ cnt a r1 = 0%nat /\ same_e a b = true.
Proof.
  induction l as [|x l IH]; [cbn; lia|]. rewrite cnt_cons. destruct (same_e a x) eqn:E.
  - intros _. exists [], x, l. auto.
  - intros H. destruct IH as (r1 & b & r2 & -> & H0 & H1); [lia|].
    exists (x :: r1), b, r2. split; [reflexivity|]. split; [|exact H1]. rewrite cnt_cons, E. exact H0.
Qed.

(** Edges of [l] that occur exactly once. *)
Definition singles (l : list edge) : list edge := filter (fun e => live e && (cnt e l =? 1)%nat) l.

Lemma filter_ext_in' {A} (f g : A -> bool) l : (forall x, In x l -> f x = g x) -> filter f l = filter g l.
Proof. apply filter_ext_in. Qed.

Lemma tag_edges_singles n : forall l, length l = n -> Forall ok_e l ->
  (forall e, In e l -> valid e -> (cnt e l <= 2)%nat) ->
  filter live (tag_edges n l) = singles l.
Proof.
  induction n as [n IHn] using lt_wf_ind. intros l Hl Hok Hc.
  destruct l as [|a rest]; [subst n; reflexivity|]. cbn [length] in Hl. subst n. cbn [tag_edges].
  inversion Hok as [|? ? Ha Hr]; subst.
  (* edges of the rest that cannot meet a *)
  destruct Ha as [ -> |Va].
  - rewrite tag_row_tagged by exact Hr. cbn [filter]. rewrite live_tagged.
    rewrite IHn; [|lia|reflexivity|exact Hr|].
    + unfold singles. cbn [filter]. rewrite live_tagged. cbn [andb]. apply filter_ext_in.
      intros e He. destruct (live e) eqn:L; [|reflexivity]. cbn [andb]. rewrite cnt_cons.
      rewrite Forall_forall in Hr. rewrite same_e_tagged by (apply ok_live; auto). reflexivity.
    + intros e He Ve. assert (K := Hc e (or_intror He) Ve). rewrite cnt_cons in K. lia.
  - assert (Ca := Hc a (or_introl eq_refl) Va). rewrite cnt_cons, same_e_refl in Ca.
    destruct (Nat.eq_dec (cnt a rest) 0) as [E0|E0].
    + rewrite tag_row_nomatch by exact E0. cbn [filter]. rewrite live_valid by exact Va.
      rewrite IHn; [|lia|reflexivity|exact Hr|].
      * unfold singles. cbn [filter]. rewrite (live_valid a Va), cnt_cons, same_e_refl, E0. cbn [andb Nat.eqb Nat.add].
        f_equal. apply filter_ext_in. intros e He. rewrite cnt_cons.
        destruct (same_e e a) eqn:E; [|reflexivity]. exfalso.
        assert (P := cnt_In e rest He). rewrite (cnt_same _ _ _ E) in P. lia.
      * intros e He Ve. assert (K := Hc e (or_intror He) Ve). rewrite cnt_cons in K. lia.
    + destruct (first_match a rest) as (r1 & b & r2 & -> & H0 & H1); [lia|].
      assert (Hr' := Hr). apply Forall_app in Hr'. destruct Hr' as [R1 R2]. inversion R2 as [|? ? Rb R2']; subst.
      rewrite tag_row_match by auto. cbn [filter]. rewrite live_tagged.
      rewrite cnt_app, cnt_cons, H1 in Ca.
      assert (Z2 : cnt a r2 = 0%nat) by lia.
      assert (Nb : forall e, In e r1 \/ In e r2 -> same_e e a = false /\ same_e e b = false).
      { intros e He. assert (Q : same_e e a = false).
        { destruct (same_e e a) eqn:E; [exfalso|reflexivity].
          destruct He as [He|He]; assert (P := cnt_In e _ He); rewrite (cnt_same _ _ _ E) in P; lia. }
        split; [exact Q|]. rewrite same_e_sym. rewrite <- (same_e_trans a b) by exact H1. rewrite same_e_sym. exact Q. }
      assert (Ct : forall e, valid e -> (In e r1 \/ In e r2) ->
         cnt e (r1 ++ tagged :: r2) = cnt e (a :: r1 ++ b :: r2)).
      { intros e Ve He. destruct (Nb e He) as [Q1 Q2].
        rewrite cnt_cons, !cnt_app, !cnt_cons, Q1, Q2, same_e_tagged by exact Ve. lia. }
      rewrite IHn; [| cbn [length]; lia |rewrite !app_length; reflexivity| |].
      * unfold singles. cbn [filter]. rewrite !filter_app. cbn [filter].
        rewrite live_tagged. cbn [andb].
        assert (Ea : (cnt a (a :: r1 ++ b :: r2) =? 1)%nat = false).
        { apply Nat.eqb_neq. rewrite cnt_cons, cnt_app, cnt_cons, same_e_refl, H1. lia. }
        rewrite Ea, andb_false_r.
        assert (Eb : (cnt b (a :: r1 ++ b :: r2) =? 1)%nat = false).
        { rewrite <- (cnt_same a b) by exact H1. exact Ea. }
        rewrite Eb, andb_false_r. f_equal; apply filter_ext_in; intros e He.
        -- destruct (live e) eqn:L; [|reflexivity]. rewrite Ct; auto.
           rewrite Forall_forall in R1. apply ok_live; auto.
        -- destruct (live e) eqn:L; [|reflexivity]. rewrite Ct; auto.
           rewrite Forall_forall in R2'. apply ok_live; auto.
      * apply Forall_app. split; [exact R1|]. constructor; [left; reflexivity|exact R2'].
      * intros e He Ve. apply in_app_or in He. destruct He as [He|[ <- |He]].
        -- rewrite Ct by auto. apply Hc; [|exact Ve]. right. apply in_or_app. auto.
        -- destruct Ve as (? & _); cbn in *; lia.
        -- rewrite Ct by auto. apply Hc; [|exact Ve]. right. apply in_or_app. right. right. exact He.
Qed.

(** No two of the singles are the same undirected edge. *)
Lemma singles_distinct l e : In e (singles l) -> cnt e (singles l) = 1%nat.
Proof.
  intros H. assert (P := cnt_In e _ H). apply filter_In in H. destruct H as [H1 H2].
  apply andb_true_iff in H2. destruct H2 as [_ H2]. apply Nat.eqb_eq in H2.
  assert (cnt e (singles l) <= cnt e l)%nat; [|lia].
  unfold cnt, singles. clear. induction l as [|x l IH]; [reflexivity|].
  assert (M : forall (f : edge -> bool) m, (length (filter (same_e e) (filter f m)) <= length (filter (same_e e) m))%nat).
  { intros f. induction m as [|y m IHm]; [reflexivity|]. cbn [filter].
    destruct (f y); cbn [filter]; destruct (same_e e y); cbn [length]; lia. }
  apply M.
Qed.

(** Multiset count: singles plus twice the number of listed distinct classes with count >= 2. *)
Definition drop_class (e : edge) (l : list edge) : list edge := filter (fun x => negb (same_e e x)) l.
Lemma drop_class_length e l : (cnt e l + length (drop_class e l))%nat = length l.
Proof.
  unfold cnt, drop_class. induction l as [|x l IH]; [reflexivity|]. cbn [filter].
  destruct (same_e e x); cbn [negb length]; lia.
Qed.
Lemma cnt_drop e x l : same_e e x = false -> cnt x (drop_class e l) = cnt x l.
Proof.
  intros H. unfold cnt, drop_class. induction l as [|y l IH]; [reflexivity|]. cbn [filter].
  destruct (same_e e y) eqn:E; cbn [negb filter].
  - destruct (same_e x y) eqn:E2; [|exact IH]. exfalso.
    rewrite same_e_sym in E2. rewrite (same_e_trans e y x E) in H. congruence.
  - destruct (same_e x y); cbn [length]; rewrite IH; reflexivity.
Qed.
Lemma singles_count L : forall K,
  (forall e, In e L -> (2 <= cnt e K)%nat) ->
  ForallOrdPairs (fun x y => same_e x y = false) L ->
  (length (singles K) + 2 * length L <= length K)%nat.
Proof.
  induction L as [|e L IH]; intros K H HP.
  - cbn [length]. assert (Q := filter_length_le (fun e => live e && (cnt e K =? 1)%nat) K). unfold singles. lia.
  - inversion HP as [|? ? HE HP']; subst. rewrite Forall_forall in HE.
    assert (H2 := H e (or_introl eq_refl)). assert (D := drop_class_length e K).
    assert (Q : (length (singles (drop_class e K)) + 2 * length L <= length (drop_class e K))%nat).
    { apply IH; [|exact HP']. intros x Hx. rewrite cnt_drop by (apply HE; exact Hx). apply H. right; exact Hx. }
    assert (E : singles K = singles (drop_class e K)).
    { unfold singles.
      assert (E1 : forall m, (forall x, In x m -> In x K) ->
         filter (fun e0 => live e0 && (cnt e0 K =? 1)%nat) m =
         filter (fun e0 => live e0 && (cnt e0 (drop_class e K) =? 1)%nat) (drop_class e m)).
      { induction m as [|x m IHm]; intros Hm; [reflexivity|]. cbn [drop_class filter].
        destruct (same_e e x) eqn:Ex; cbn [negb].
        - replace (cnt x K =? 1)%nat with false.
          + rewrite andb_false_r. apply IHm. intros; apply Hm; right; assumption.
          + symmetry. apply Nat.eqb_neq. rewrite <- (cnt_same e x) by exact Ex. lia.
        - cbn [filter]. rewrite cnt_drop by exact Ex. unfold drop_class in IHm.
          rewrite IHm by (intros; apply Hm; right; assumption). reflexivity. }
      apply E1. auto. }
    rewrite E. cbn [length]. lia.
Qed.
