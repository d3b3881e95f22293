(** Plane geometry behind the incremental Delaunay triangulation of alignment.cpp:164-337,
    over the reals, for points given by an index (as the C code does). *)
From Coq Require Import Reals Lra ZArith Lia List Psatz Bool.
Import ListNotations.
Open Scope R_scope.

Section Geo.
Context (X Y : Z -> R).

(** Twice the signed area of the triangle abc: positive iff c is left of the line a -> b. *)
Definition cr (a b c : Z) : R := (X b - X a) * (Y c - Y a) - (Y b - Y a) * (X c - X a).
(** Power of c with respect to the circle with diameter ab. *)
Definition dt (a b c : Z) : R := (X c - X a) * (X c - X b) + (Y c - Y a) * (Y c - Y b).
(** In-circle determinant. *)
Definition icd (a b c d : Z) : R := dt a b d * cr a b c - dt a b c * cr a b d.
(** Negative iff d lies strictly inside the circle through a, b, c. *)
Definition G (a b c d : Z) : R := cr a b c * icd a b c d.

Lemma cr_rot a b c : cr b c a = cr a b c.
Proof. unfold cr. ring. Qed.
Lemma cr_swap a b c : cr b a c = - cr a b c.
Proof. unfold cr. ring. Qed.
Lemma cr_swap2 a b c : cr a c b = - cr a b c.
Proof. unfold cr. ring. Qed.
Lemma icd_rot a b c d : icd b c a d = icd a b c d.
Proof. unfold icd, dt, cr. ring. Qed.
Lemma icd_swap a b c d : icd b a c d = - icd a b c d.
Proof. unfold icd, dt, cr. ring. Qed.
Lemma icd_swap_last a b c d : icd a b d c = - icd a b c d.
Proof. unfold icd, dt, cr. ring. Qed.
Lemma G_rot a b c d : G b c a d = G a b c d.
Proof. unfold G. rewrite cr_rot, icd_rot. reflexivity. Qed.
Lemma G_swap a b c d : G b a c d = G a b c d.
Proof. unfold G. rewrite cr_swap, icd_swap. ring. Qed.
Lemma G_swap2 a b c d : G a c b d = G a b c d.
Proof. rewrite <- G_rot. rewrite G_swap. apply G_rot. Qed.

Lemma icd_3_eq a b c d : a = d \/ b = d \/ c = d -> icd a b c d = 0.
Proof. intros [ -> | [ -> | -> ] ]; unfold icd, dt, cr; ring. Qed.

(** The power of a point with respect to the circle with centre o through a. *)
Definition pw (ox oy : R) (a d : Z) : R :=
  ((X d - ox) * (X d - ox) + (Y d - oy) * (Y d - oy)) - ((X a - ox) * (X a - ox) + (Y a - oy) * (Y a - oy)).

Lemma pw_icd ox oy a b c d : pw ox oy a b = 0 -> pw ox oy a c = 0 ->
  pw ox oy a d * cr a b c = icd a b c d.
Proof.
  intros Hb Hc.
  assert (E : pw ox oy a d * cr a b c - icd a b c d =
     pw ox oy a b * (cr a d c) + pw ox oy a c * (cr a b d)) by (unfold pw, icd, dt, cr; ring).
  rewrite Hb, Hc in E. lra.
Qed.

Lemma pw_G ox oy a b c d : pw ox oy a b = 0 -> pw ox oy a c = 0 ->
  G a b c d = cr a b c * cr a b c * pw ox oy a d.
Proof. intros Hb Hc. unfold G. rewrite <- (pw_icd ox oy) by assumption. ring. Qed.

Lemma pw_sign ox oy a b c d : pw ox oy a b = 0 -> pw ox oy a c = 0 -> cr a b c <> 0 ->
  (pw ox oy a d < 0 <-> G a b c d < 0) /\ (pw ox oy a d = 0 <-> G a b c d = 0).
Proof.
  intros Hb Hc Hn. rewrite (pw_G ox oy) by assumption.
  assert (0 < cr a b c * cr a b c) by nra. set (k := cr a b c * cr a b c) in *.
  set (p := pw ox oy a d) in *. split; split; intros; nra.
Qed.

(** General position on the indices satisfying [U]. *)
Context (U : Z -> Prop).
Definition general_position : Prop :=
  (forall a b c, U a -> U b -> U c -> a <> b -> b <> c -> a <> c -> cr a b c <> 0) /\
  (forall a b c d, U a -> U b -> U c -> U d ->
     a <> b -> a <> c -> a <> d -> b <> c -> b <> d -> c <> d -> icd a b c d <> 0).
Context (GP : general_position).

Lemma gp_cr a b c : U a -> U b -> U c -> a <> b -> b <> c -> a <> c -> cr a b c <> 0.
Proof. apply GP. Qed.
Lemma gp_icd a b c d : U a -> U b -> U c -> U d ->
  a <> b -> a <> c -> a <> d -> b <> c -> b <> d -> c <> d -> icd a b c d <> 0.
Proof. apply GP. Qed.

(** Delaunay triples of a vertex set. *)
Definition Del (V : Z -> Prop) (a b c : Z) : Prop :=
  V a /\ V b /\ V c /\ a <> b /\ b <> c /\ a <> c /\
  forall d, V d -> d <> a -> d <> b -> d <> c -> 0 < G a b c d.

Lemma Del_rot (V : Z -> Prop) a b c : Del V a b c -> Del V b c a.
Proof.
  intros (A & B & C & H1 & H2 & H3 & H). repeat split; auto.
  intros d D D1 D2 D3. rewrite G_rot. auto.
Qed.
Lemma Del_swap (V : Z -> Prop) a b c : Del V a b c -> Del V b a c.
Proof.
  intros (A & B & C & H1 & H2 & H3 & H). repeat split; auto.
  intros d D D1 D2 D3. rewrite G_swap. auto.
Qed.

(** Same side of an edge: at most one Delaunay triangle. *)
Lemma Del_same_side (V : Z -> Prop) a b c c' : Del V a b c -> Del V a b c' -> 0 < cr a b c * cr a b c' -> c = c'.
Proof.
  intros (A & B & C & H1 & H2 & H3 & H) (A' & B' & C' & H1' & H2' & H3' & H') S.
  destruct (Z.eq_dec c c') as [E|E]; [exact E|exfalso].
  assert (K := H c' C' (not_eq_sym H3') (not_eq_sym H2') (not_eq_sym E)).
  assert (K' := H' c C (not_eq_sym H3) (not_eq_sym H2) E).
  unfold G in K, K'. rewrite icd_swap_last in K'.
  set (u := cr a b c) in *. set (v := cr a b c') in *. set (w := icd a b c c') in *.
  assert (0 < u * v * (w * w)) by nra. nra.
Qed.

Lemma Del_edge_two (V : Z -> Prop) a b c1 c2 c3 : (forall k, V k -> U k) ->
  Del V a b c1 -> Del V a b c2 -> Del V a b c3 -> c1 = c2 \/ c1 = c3 \/ c2 = c3.
Proof.
  intros HV D1 D2 D3.
  assert (N : forall c, Del V a b c -> cr a b c <> 0).
  { intros c (A & B & C & K1 & K2 & K3 & _). apply gp_cr; auto. }
  assert (N1 := N c1 D1). assert (N2 := N c2 D2). assert (N3 := N c3 D3).
  destruct (Rlt_dec 0 (cr a b c1 * cr a b c2)) as [H|H]; [left; eapply Del_same_side; eauto|].
  destruct (Rlt_dec 0 (cr a b c1 * cr a b c3)) as [H'|H']; [right; left; eapply Del_same_side; eauto|].
  right; right. eapply Del_same_side; eauto.
  set (x := cr a b c1) in *. set (y := cr a b c2) in *. set (z := cr a b c3) in *.
  assert (x * y < 0) by (assert (x * y <> 0) by (apply Rmult_integral_contrapositive_currified; auto); lra).
  assert (x * z < 0) by (assert (x * z <> 0) by (apply Rmult_integral_contrapositive_currified; auto); lra).
  assert (0 < x * x * (y * z)) by nra. assert (0 < x * x) by nra. nra.
Qed.

(** Pencil of circles through a and b: the parameter of the circle through d. *)
Definition mu (a b d : Z) : R := dt a b d / cr a b d.
Lemma G_mu a b c d : cr a b c <> 0 -> cr a b d <> 0 ->
  G a b c d = (cr a b c * cr a b c) * (cr a b d * (mu a b d - mu a b c)).
Proof. intros. unfold G, icd, mu. field. auto. Qed.
Lemma G_pos a b c d : cr a b c <> 0 -> cr a b d <> 0 ->
  (0 < G a b c d <-> (0 < cr a b d /\ mu a b c < mu a b d) \/ (cr a b d < 0 /\ mu a b d < mu a b c)).
Proof.
  intros Hc Hd. rewrite G_mu by assumption.
  assert (0 < cr a b c * cr a b c) by nra. set (k := cr a b c * cr a b c) in *.
  set (w := cr a b d) in *. set (m := mu a b d). set (m' := mu a b c). split.
  - intros K. assert (K' : 0 < w * (m - m')) by nra.
    destruct (Rlt_dec 0 w); [left|right]; nra.
  - intros [ [P Q] | [P Q] ]; apply Rmult_lt_0_compat; auto; nra.
Qed.
Lemma G_neg a b c d : cr a b c <> 0 -> cr a b d <> 0 ->
  (G a b c d < 0 <-> (0 < cr a b d /\ mu a b d < mu a b c) \/ (cr a b d < 0 /\ mu a b c < mu a b d)).
Proof.
  intros Hc Hd. rewrite G_mu by assumption.
  assert (0 < cr a b c * cr a b c) by nra. set (k := cr a b c * cr a b c) in *.
  set (w := cr a b d) in *. set (m := mu a b d). set (m' := mu a b c). split.
  - intros K. assert (K' : w * (m - m') < 0) by nra.
    destruct (Rlt_dec 0 w); [left|right]; nra.
  - intros [ [P Q] | [P Q] ]; assert (w * (m - m') < 0) by nra; nra.
Qed.
Lemma G_nonzero a b c d : U a -> U b -> U c -> U d ->
  a <> b -> a <> c -> a <> d -> b <> c -> b <> d -> c <> d -> G a b c d <> 0.
Proof.
  intros. unfold G. apply Rmult_integral_contrapositive_currified; [apply gp_cr|apply gp_icd]; auto.
Qed.
Lemma mu_neq a b c d : U a -> U b -> U c -> U d ->
  a <> b -> a <> c -> a <> d -> b <> c -> b <> d -> c <> d -> mu a b c <> mu a b d.
Proof.
  intros Ua Ub Uc Ud ? ? ? ? ? ? E. apply (G_nonzero a b c d); auto.
  rewrite G_mu by (apply gp_cr; auto). rewrite E. ring.
Qed.

(** A smallest and a largest element with respect to a real-valued function. *)
Lemma argmin (f : Z -> R) (P : Z -> Prop) (Pd : forall z, {P z} + {~ P z}) (l : list Z) :
  (exists d, In d l /\ P d) -> exists d, In d l /\ P d /\ forall e, In e l -> P e -> f d <= f e.
Proof.
  induction l as [|x l IH]; intros (d & Hd & Hp); [contradiction|].
  destruct (Pd x) as [Hx|Hx].
  - destruct (Exists_dec P l Pd) as [HE|HE].
    + apply Exists_exists in HE. destruct (IH HE) as (m & Hm & Hmp & Hb).
      destruct (Rle_dec (f m) (f x)) as [Hc|Hc].
      * exists m. split; [right; exact Hm|]. split; [exact Hmp|]. intros e [ <- |He] Hep; auto.
      * exists x. split; [left; reflexivity|]. split; [exact Hx|].
        intros e [ <- |He] Hep; [lra|]. assert (Q := Hb e He Hep). lra.
    + exists x. split; [left; reflexivity|]. split; [exact Hx|].
      intros e [ <- |He] Hep; [lra|]. exfalso. apply HE. apply Exists_exists. eauto.
  - destruct Hd as [ <- |Hd]; [contradiction|].
    destruct IH as (m & Hm & Hmp & Hb); [eauto|].
    exists m. split; [right; exact Hm|]. split; [exact Hmp|].
    intros e [ <- |He] Hep; [contradiction|auto].
Qed.

(** *** A finite vertex set and one more point *)
Section Step.
Context (vl : list Z) (HU : forall k, In k vl -> U k).
Notation V := (fun k => In k vl).

Lemma Del_cr a b c : Del V a b c -> cr a b c <> 0.
Proof. intros (A & B & C & K1 & K2 & K3 & _). apply gp_cr; auto. Qed.

(** The triangle on the left (right) of an edge is the one with the least (greatest) parameter. *)
Lemma left_min a b c : Del V a b c -> 0 < cr a b c ->
  forall e, In e vl -> e <> a -> e <> b ->
    (0 < cr a b e -> mu a b c <= mu a b e) /\ (cr a b e < 0 -> mu a b e < mu a b c).
Proof.
  intros D Hc e He Na Nb. assert (N := Del_cr _ _ _ D). destruct D as (A & B & C & K1 & K2 & K3 & H).
  destruct (Z.eq_dec e c) as [ -> |Nc]; [split; intros; lra|].
  assert (Ne : cr a b e <> 0) by (apply gp_cr; auto).
  apply (G_pos a b c e) in H; auto. lra.
Qed.
Lemma right_max a b c : Del V a b c -> cr a b c < 0 ->
  forall e, In e vl -> e <> a -> e <> b ->
    (cr a b e < 0 -> mu a b e <= mu a b c) /\ (0 < cr a b e -> mu a b c < mu a b e).
Proof.
  intros D Hc e He Na Nb. assert (N := Del_cr _ _ _ D). destruct D as (A & B & C & K1 & K2 & K3 & H).
  destruct (Z.eq_dec e c) as [ -> |Nc]; [split; intros; lra|].
  assert (Ne : cr a b e <> 0) by (apply gp_cr; auto).
  apply (G_pos a b c e) in H; auto. lra.
Qed.

(** A point on the left (right) which separates the parameters gives a Delaunay triangle. *)
Lemma mk_left a b c : In a vl -> In b vl -> In c vl -> a <> b -> 0 < cr a b c ->
  (forall e, In e vl -> e <> a -> e <> b ->
     (0 < cr a b e -> mu a b c <= mu a b e) /\ (cr a b e < 0 -> mu a b e < mu a b c)) -> Del V a b c.
Proof.
  intros A B C Hab Hc H.
  assert (Nca : c <> a) by (intros ->; unfold cr in Hc; lra).
  assert (Ncb : c <> b) by (intros ->; unfold cr in Hc; lra).
  repeat split; auto. intros e He Na Nb Nc.
  assert (Ne : cr a b e <> 0) by (apply gp_cr; auto).
  assert (Nm : mu a b c <> mu a b e) by (apply mu_neq; auto).
  apply G_pos; [lra|exact Ne|]. destruct (H e He Na Nb) as [H1 H2].
  destruct (Rlt_dec 0 (cr a b e)) as [P|P]; [left|right]; split; lra.
Qed.

Lemma left_exists a b c : Del V a b c -> cr a b c < 0 -> (exists d, In d vl /\ 0 < cr a b d) ->
  exists d, Del V a b d /\ 0 < cr a b d.
Proof.
  intros D Hc HE. assert (R := right_max a b c D Hc).
  destruct D as (A & B & C & K1 & K2 & K3 & H).
  destruct (argmin (mu a b) (fun e => 0 < cr a b e) (fun e => Rlt_dec 0 (cr a b e)) vl HE) as (d & Hd & Hdp & Hm).
  exists d. split; [|exact Hdp]. apply mk_left; auto.
  assert (Nda : d <> a) by (intros ->; unfold cr in Hdp; lra).
  assert (Ndb : d <> b) by (intros ->; unfold cr in Hdp; lra).
  intros e He Na Nb. split; intros P.
  - auto.
  - destruct (R e He Na Nb) as [R1 _]. destruct (R d Hd Nda Ndb) as [_ R2]. specialize (R1 P). specialize (R2 Hdp). lra.
Qed.

Context (q : Z) (Hq : U q) (Hqv : ~ In q vl).
(** q lies in the hull of the vertex set: a vertex on q's side of every line. *)
Context (Hull : forall a b, 0 < cr a b q -> exists k, In k vl /\ 0 < cr a b k).
Notation Vq := (fun k => In k (q :: vl)).

Lemma nq k : In k vl -> k <> q.
Proof. intros H ->. contradiction. Qed.

(** Triples of the old vertices. *)
Lemma Del_old a b c : In a vl -> In b vl -> In c vl ->
  (Del Vq a b c <-> Del V a b c /\ 0 < G a b c q).
Proof.
  intros A B C. split.
  - intros (_ & _ & _ & K1 & K2 & K3 & H). split.
    + repeat split; auto. intros d Hd. apply H. right; exact Hd.
    + apply H; [left; reflexivity| | |]; intros E; subst; contradiction.
  - intros ((_ & _ & _ & K1 & K2 & K3 & H) & P). repeat split; try (right; assumption); auto.
    intros d [ <- |Hd] Na Nb Nc; auto.
Qed.

(** New triangles: q seen from an edge which belongs to exactly one triangle whose circle contains q. *)
Lemma Del_new_bad_left a b : In a vl -> In b vl -> 0 < cr a b q -> Del Vq a b q ->
  exists c, Del V a b c /\ G a b c q < 0 /\ forall c', Del V a b c' -> G a b c' q < 0 -> c' = c.
Proof.
  intros A B Hs (_ & _ & _ & K1 & K2 & K3 & H).
  assert (M : forall e, In e vl -> e <> a -> e <> b ->
     (0 < cr a b e -> mu a b q < mu a b e) /\ (cr a b e < 0 -> mu a b e < mu a b q)).
  { intros e He Na Nb. assert (Ne : cr a b e <> 0) by (apply gp_cr; auto).
    assert (P : 0 < G a b q e) by (apply H; [right; exact He|auto|auto|apply nq; exact He]).
    apply G_pos in P; [|lra|exact Ne]. lra. }
  destruct (argmin (mu a b) (fun e => 0 < cr a b e) (fun e => Rlt_dec 0 (cr a b e)) vl (Hull a b Hs)) as (c & Hc & Hcp & Hm).
  assert (Nca : c <> a) by (intros ->; unfold cr in Hcp; lra).
  assert (Ncb : c <> b) by (intros ->; unfold cr in Hcp; lra).
  assert (Mc := proj1 (M c Hc Nca Ncb) Hcp).
  exists c. split; [|split].
  - apply mk_left; auto. intros e He Na Nb. split; intros P; [auto|].
    assert (Q := proj2 (M e He Na Nb) P). lra.
  - apply G_neg; lra.
  - intros c' D' B'. assert (N' := Del_cr _ _ _ D').
    assert (D0 := D'). destruct D0 as (_ & _ & C' & L1 & L2 & L3 & _).
    apply G_neg in B'; [|exact N'|lra]. destruct B' as [ [_ B'] | [B' _] ]; [|lra].
    destruct (Rlt_dec 0 (cr a b c')) as [P|P].
    + assert (Del V a b c).
      { apply mk_left; auto. intros e He Na Nb. split; intros P'; [auto|].
        assert (Q := proj2 (M e He Na Nb) P'). lra. }
      apply (Del_same_side V a b); auto. nra.
    + exfalso. assert (Q : cr a b c' < 0) by lra. apply (M c') in Q; auto. lra.
Qed.

Lemma Del_bad_new_left a b c : 0 < cr a b q ->
  Del V a b c -> G a b c q < 0 -> (forall c', Del V a b c' -> G a b c' q < 0 -> c' = c) ->
  Del Vq a b q.
Proof.
  intros Hs D B Uq. assert (N := Del_cr _ _ _ D). assert (D0 := D).
  destruct D0 as (Ha & Hb & Hc & K1 & K2 & K3 & H).
  assert (Bm := B). apply G_neg in Bm; [|exact N|lra]. destruct Bm as [ [_ Bm] | [Bm _] ]; [|lra].
  destruct (Rlt_dec 0 (cr a b c)) as [P|P].
  - (* q on the same side as c *)
    assert (L := left_min a b c D P).
    repeat split; try (right; assumption); try (left; reflexivity); auto;
      try (apply nq; assumption).
    intros e [ <- |He] Na Nb Nq; [contradiction Nq; reflexivity|].
    assert (Ne : cr a b e <> 0) by (apply gp_cr; auto).
    assert (Nm : mu a b e <> mu a b q).
    { apply mu_neq; auto; intros E; subst; contradiction. }
    apply G_pos; [lra|exact Ne|]. destruct (L e He Na Nb) as [L1 L2].
    destruct (Rlt_dec 0 (cr a b e)) as [Pe|Pe].
    + left. split; [exact Pe|]. specialize (L1 Pe). lra.
    + right. split; [lra|].
      destruct (Rlt_dec (mu a b e) (mu a b q)) as [T|T]; [exact T|exfalso].
      (* some triangle on the right of ab; swap the edge to use [left_exists] *)
      assert (D' := Del_swap _ _ _ _ D).
      destruct (left_exists b a c D') as (d & Dd & Pd).
      { rewrite cr_swap. lra. }
      { exists e. rewrite cr_swap. split; [exact He|lra]. }
      apply Del_swap in Dd. rewrite cr_swap in Pd.
      assert (Rm := right_max a b d Dd ltac:(lra) e He Na Nb).
      assert (mu a b e <= mu a b d) by (apply Rm; lra).
      assert (Nmd : mu a b d <> mu a b q).
      { destruct Dd as (_ & _ & Vd & _ & Nd2 & Nd3 & _).
        apply mu_neq; auto; intros E; subst; contradiction. }
      assert (d = c).
      { apply Uq; [exact Dd|]. apply G_neg; [lra|lra|]. left. split; lra. }
      subst d. lra.
  - (* q beyond the edge: the triangle on q's side is bad too *)
    exfalso. destruct (left_exists a b c D) as (d & Dd & Pd); [lra|apply Hull; exact Hs|].
    assert (d = c); [|subst; lra].
    apply Uq; [exact Dd|]. apply G_neg; [lra|lra|]. left. split; [lra|].
    destruct (right_max a b c D ltac:(lra) d) as [_ R2].
    + apply Dd.
    + intros ->. apply Dd. reflexivity || (destruct Dd as (_ & _ & _ & _ & _ & T & _); apply T; reflexivity).
    + intros ->. destruct Dd as (_ & _ & _ & _ & T & _). apply T; reflexivity.
    + specialize (R2 Pd). lra.
Qed.

Theorem Del_new a b : In a vl -> In b vl -> a <> b ->
  (Del Vq a b q <->
   exists c, Del V a b c /\ G a b c q < 0 /\ forall c', Del V a b c' -> G a b c' q < 0 -> c' = c).
Proof.
  intros A B K.
  assert (N : cr a b q <> 0).
  { apply gp_cr; auto; intros E; subst; contradiction. }
  destruct (Rlt_dec 0 (cr a b q)) as [P|P].
  - split; [apply Del_new_bad_left; auto|]. intros (c & D & Bq & Uq). eapply Del_bad_new_left; eauto.
  - assert (P' : 0 < cr b a q) by (rewrite cr_swap; lra). split.
    + intros D. apply Del_swap in D. destruct (Del_new_bad_left b a B A P' D) as (c & Dc & Bc & Uc).
      exists c. split; [apply Del_swap; exact Dc|]. split; [rewrite G_swap; exact Bc|].
      intros c' D' B'. apply Uc; [apply Del_swap; exact D'|rewrite G_swap; exact B'].
    + intros (c & D & Bq & Uq). apply Del_swap.
      apply (Del_bad_new_left b a c P'); [apply Del_swap; exact D|rewrite G_swap; exact Bq|].
      intros c' D' B'. apply Uq; [apply Del_swap; exact D'|rewrite G_swap; exact B'].
Qed.

(** A triangle whose circle contains q but which lies on the other side of one of its edges has a
    neighbour across that edge whose circle also contains q. *)
Lemma bad_neighbour a b c : Del V a b c -> G a b c q < 0 -> cr a b c * cr a b q < 0 ->
  exists d, Del V a b d /\ G a b d q < 0 /\ 0 < cr a b d * cr a b q.
Proof.
  assert (Main : forall a b, Del V a b c -> G a b c q < 0 -> cr a b c < 0 -> 0 < cr a b q ->
    exists d, Del V a b d /\ G a b d q < 0 /\ 0 < cr a b d * cr a b q).
  { clear a b. intros a b D Bq Hc Hs. assert (N := Del_cr _ _ _ D).
    destruct (left_exists a b c D Hc (Hull a b Hs)) as (d & Dd & Pd).
    exists d. split; [exact Dd|]. split; [|nra].
    apply G_neg in Bq; [|exact N|lra]. destruct Bq as [ [_ Bq] | [Bq _] ]; [|lra].
    apply G_neg; [lra|lra|]. left. split; [lra|].
    assert (D1 := Dd). destruct D1 as (_ & _ & Vd & _ & N2 & N3 & _).
    destruct (right_max a b c D Hc d Vd (not_eq_sym N3) (not_eq_sym N2)) as [_ R2].
    specialize (R2 Pd). lra. }
  intros D Bq S. destruct (Rlt_dec 0 (cr a b q)) as [P|P].
  - apply Main; auto. nra.
  - destruct (Main b a) as (d & Dd & Bd & Sd).
    + apply Del_swap, D.
    + rewrite G_swap. exact Bq.
    + rewrite cr_swap. nra.
    + rewrite cr_swap. assert (cr a b q <> 0) by (intros E; rewrite E in S; lra). lra.
    + exists d. split; [apply Del_swap, Dd|]. split; [rewrite G_swap; exact Bd|].
      rewrite (cr_swap a b d), (cr_swap a b q) in Sd. lra.
Qed.
End Step.

(** *** Two Delaunay triangles have no common interior point *)

(** (x,y) lies strictly inside the triangle abc. *)
Definition crp (a b : Z) (x y : R) : R := (X b - X a) * (y - Y a) - (Y b - Y a) * (x - X a).
Definition inside (a b c : Z) (x y : R) : Prop :=
  0 < cr a b c * crp a b x y /\ 0 < cr a b c * crp b c x y /\ 0 < cr a b c * crp c a x y.

(** An affine function which is non-negative at the vertices and positive at one of them is positive
    inside the triangle. *)
Lemma affine_inside (u v w : R) a b c x y :
  inside a b c x y ->
  0 <= u * X a + v * Y a + w -> 0 <= u * X b + v * Y b + w -> 0 <= u * X c + v * Y c + w ->
  (0 < u * X a + v * Y a + w \/ 0 < u * X b + v * Y b + w \/ 0 < u * X c + v * Y c + w) ->
  0 < u * x + v * y + w.
Proof.
  intros (I1 & I2 & I3) A B C P.
  set (fa := u * X a + v * Y a + w) in *. set (fb := u * X b + v * Y b + w) in *.
  set (fc := u * X c + v * Y c + w) in *.
  assert (E : (cr a b c * cr a b c) * (u * x + v * y + w) =
     (cr a b c * crp b c x y) * fa + (cr a b c * crp c a x y) * fb + (cr a b c * crp a b x y) * fc).
  { unfold fa, fb, fc, crp, cr. ring. }
  assert (K : 0 < cr a b c * cr a b c).
  { destruct (Req_dec (cr a b c) 0) as [Z0|Z0]; [rewrite Z0 in I1; lra|nra]. }
  set (ka := cr a b c * crp b c x y) in *. set (kb := cr a b c * crp c a x y) in *.
  set (kc := cr a b c * crp a b x y) in *. set (k := cr a b c * cr a b c) in *.
  assert (0 < k * (u * x + v * y + w)).
  { rewrite E. assert (0 <= ka * fa) by (apply Rmult_le_pos; lra).
    assert (0 <= kb * fb) by (apply Rmult_le_pos; lra).
    assert (0 <= kc * fc) by (apply Rmult_le_pos; lra).
    destruct P as [P|[P|P]].
    - assert (0 < ka * fa) by (apply Rmult_lt_0_compat; lra). lra.
    - assert (0 < kb * fb) by (apply Rmult_lt_0_compat; lra). lra.
    - assert (0 < kc * fc) by (apply Rmult_lt_0_compat; lra). lra. }
  nra.
Qed.

Lemma affine_inside_le (u v w : R) a b c x y :
  inside a b c x y ->
  0 <= u * X a + v * Y a + w -> 0 <= u * X b + v * Y b + w -> 0 <= u * X c + v * Y c + w ->
  0 <= u * x + v * y + w.
Proof.
  intros I A B C. destruct (Rlt_dec (u * x + v * y + w) 0) as [H|H]; [|lra].
  set (k := - (u * x + v * y + w)).
  assert (0 < u * x + v * y + (w + k)); [|unfold k in *; lra].
  apply (affine_inside u v (w + k) a b c x y I); unfold k; try lra.
Qed.

(** Circle through a, b, c as x² + y² + u x + v y + w. *)
Lemma circle_of a b c : cr a b c <> 0 -> exists u v w, forall d,
  cr a b c * cr a b c * (X d * X d + Y d * Y d + u * X d + v * Y d + w) = G a b c d.
Proof.
  intros N. set (m := dt a b c / cr a b c).
  exists (- X a - X b + m * (Y b - Y a)), (- Y a - Y b - m * (X b - X a)),
    (X a * X b + Y a * Y b - m * ((X b - X a) * (- Y a) - (Y b - Y a) * (- X a))).
  intros d. unfold m, G, icd. 
  assert (E : forall k, k = dt a b c / cr a b c -> k * cr a b c = dt a b c).
  { intros k ->. field. exact N. }
  set (k := dt a b c / cr a b c) in *. specialize (E k eq_refl). clearbody k.
  rewrite <- E. unfold dt, cr. ring.
Qed.

Lemma Del_disjoint (V : Z -> Prop) a b c a' b' c' x y :
  (forall k, V k -> U k) -> Del V a b c -> Del V a' b' c' ->
  inside a b c x y -> inside a' b' c' x y ->
  (forall k, (k = a \/ k = b \/ k = c) <-> (k = a' \/ k = b' \/ k = c')).
Proof.
  intros HV D D' I I'.
  assert (N : cr a b c <> 0) by (destruct D as (A & B & C & K1 & K2 & K3 & _); apply gp_cr; auto).
  assert (N' : cr a' b' c' <> 0) by (destruct D' as (A & B & C & K1 & K2 & K3 & _); apply gp_cr; auto).
  destruct (circle_of a b c N) as (u & v & w & E).
  destruct (circle_of a' b' c' N') as (u' & v' & w' & E').
  set (p := fun d => X d * X d + Y d * Y d + u * X d + v * Y d + w).
  set (p' := fun d => X d * X d + Y d * Y d + u' * X d + v' * Y d + w').
  assert (Pz : forall d, d = a \/ d = b \/ d = c -> p d = 0).
  { intros d Hd. assert (G a b c d = 0).
    { unfold G. rewrite icd_3_eq; [ring|]. destruct Hd as [ -> | [ -> | -> ] ]; auto. }
    specialize (E d). fold (p d) in E. rewrite H in E. assert (0 < cr a b c * cr a b c) by nra. nra. }
  assert (Pz' : forall d, d = a' \/ d = b' \/ d = c' -> p' d = 0).
  { intros d Hd. assert (G a' b' c' d = 0).
    { unfold G. rewrite icd_3_eq; [ring|]. destruct Hd as [ -> | [ -> | -> ] ]; auto. }
    specialize (E' d). fold (p' d) in E'. rewrite H in E'. assert (0 < cr a' b' c' * cr a' b' c') by nra. nra. }
  assert (Pp : forall d, V d -> ~ (d = a \/ d = b \/ d = c) -> 0 < p d).
  { intros d Vd Hd. destruct D as (A & B & C & K1 & K2 & K3 & H).
    assert (0 < G a b c d) by (apply H; auto). rewrite <- E in H0. fold (p d) in H0.
    assert (0 < cr a b c * cr a b c) by nra. nra. }
  assert (Pp' : forall d, V d -> ~ (d = a' \/ d = b' \/ d = c') -> 0 < p' d).
  { intros d Vd Hd. destruct D' as (A & B & C & K1 & K2 & K3 & H).
    assert (0 < G a' b' c' d) by (apply H; auto). rewrite <- E' in H0. fold (p' d) in H0.
    assert (0 < cr a' b' c' * cr a' b' c') by nra. nra. }
  assert (M3 : forall k x y z : Z, {k = x \/ k = y \/ k = z} + {~ (k = x \/ k = y \/ k = z)}).
  { intros k x0 y0 z0. destruct (Z.eq_dec k x0), (Z.eq_dec k y0), (Z.eq_dec k z0); (left; tauto) || (right; tauto). }
  assert (Pn : forall d, V d -> 0 <= p d).
  { intros d Vd. destruct (M3 d a b c) as [H|H]; [rewrite Pz by exact H; lra|apply Rlt_le; auto]. }
  assert (Pn' : forall d, V d -> 0 <= p' d).
  { intros d Vd. destruct (M3 d a' b' c') as [H|H]; [rewrite Pz' by exact H; lra|apply Rlt_le; auto]. }
  assert (VA : V a /\ V b /\ V c) by (destruct D as (A & B & C & _); auto).
  assert (VA' : V a' /\ V b' /\ V c') by (destruct D' as (A & B & C & _); auto).
  destruct VA as (VA & VB & VC). destruct VA' as (VA' & VB' & VC').
  (* h = p - p' is affine; it is >= 0 on the vertices of the second triangle, <= 0 on those of the first *)
  assert (h : forall d, (u - u') * X d + (v - v') * Y d + (w - w') = p d - p' d) by (intros; unfold p, p'; ring).
  assert (h' : forall d, (u' - u) * X d + (v' - v) * Y d + (w' - w) = p' d - p d) by (intros; unfold p, p'; ring).
  assert (T : 0 <= (u' - u) * x + (v' - v) * y + (w' - w)).
  { apply (affine_inside_le _ _ _ a b c x y I); rewrite h', Pz by auto.
    - specialize (Pn' a VA). lra.
    - specialize (Pn' b VB). lra.
    - specialize (Pn' c VC). lra. }
  assert (T' : ~ (0 < p a' \/ 0 < p b' \/ 0 < p c')).
  { intros Hs. assert (0 < (u - u') * x + (v - v') * y + (w - w')); [|lra].
    assert (Za : p' a' = 0) by auto. assert (Zb : p' b' = 0) by auto. assert (Zc : p' c' = 0) by auto.
    assert (Qa := Pn _ VA'). assert (Qb := Pn _ VB'). assert (Qc := Pn _ VC').
    apply (affine_inside _ _ _ a' b' c' x y I'); rewrite !h, ?Za, ?Zb, ?Zc; lra. }
  assert (Ha : a' = a \/ a' = b \/ a' = c) by (destruct (M3 a' a b c) as [t|t]; [exact t|specialize (Pp a' VA' t); lra]).
  assert (Hb : b' = a \/ b' = b \/ b' = c) by (destruct (M3 b' a b c) as [t|t]; [exact t|specialize (Pp b' VB' t); lra]).
  assert (Hc : c' = a \/ c' = b \/ c' = c) by (destruct (M3 c' a b c) as [t|t]; [exact t|specialize (Pp c' VC' t); lra]).
  destruct D as (_ & _ & _ & K1 & K2 & K3 & _). destruct D' as (_ & _ & _ & L1 & L2 & L3 & _).
  intros k. clear - K1 K2 K3 L1 L2 L3 Ha Hb Hc.
  destruct Ha as [ -> | [ -> | -> ] ], Hb as [ -> | [ -> | -> ] ], Hc as [ -> | [ -> | -> ] ];
    try contradiction; tauto.
Qed.


(** *** Every point of the hull lies in a Delaunay triangle *)

(** Power of (x,y) with respect to the circle through a, b, c, by the pencil through a and b. *)
Definition dtp (a b : Z) (x y : R) : R := (x - X a) * (x - X b) + (y - Y a) * (y - Y b).
Definition pwt (a b c : Z) (x y : R) : R := dtp a b x y - mu a b c * crp a b x y.
Lemma pwt_rot a b c x y : cr a b c <> 0 -> pwt b c a x y = pwt a b c x y.
Proof.
  intros N. unfold pwt, mu. rewrite cr_rot.
  apply (Rmult_eq_reg_l (cr a b c)); [|exact N].
  transitivity (cr a b c * dtp b c x y - dt b c a * crp b c x y); [field; exact N|].
  transitivity (cr a b c * dtp a b x y - dt a b c * crp a b x y); [|field; exact N].
  unfold cr, dtp, dt, crp. ring.
Qed.

Section Cover.
Context (vl : list Z) (HU : forall k, In k vl -> U k).
Context (x y : R) (Hull : forall a b, 0 < crp a b x y -> exists k, In k vl /\ 0 < cr a b k).
Notation V := (fun k => In k vl).

Lemma walk a b c : Del V a b c -> cr a b c * crp a b x y < 0 ->
  exists d, Del V a b d /\ pwt a b d x y < pwt a b c x y.
Proof.
  assert (Main : forall a b, Del V a b c -> cr a b c < 0 -> 0 < crp a b x y ->
    exists d, Del V a b d /\ pwt a b d x y < pwt a b c x y).
  { clear a b. intros a b D Hc Hs.
    destruct (left_exists vl HU a b c D Hc (Hull a b Hs)) as (d & Dd & Pd).
    exists d. split; [exact Dd|].
    assert (D1 := Dd). destruct D1 as (_ & _ & Vd & _ & N2 & N3 & _).
    destruct (right_max vl HU a b c D Hc d Vd (not_eq_sym N3) (not_eq_sym N2)) as [_ R2].
    specialize (R2 Pd). unfold pwt. nra. }
  intros D S. destruct (Rlt_dec 0 (crp a b x y)) as [P|P].
  - apply Main; auto. nra.
  - assert (Sw : forall e, pwt b a e x y = pwt a b e x y).
    { intros e. unfold pwt, mu. replace (cr b a e) with (- cr a b e) by (unfold cr; ring).
      replace (dt b a e) with (dt a b e) by (unfold dt; ring).
      replace (crp b a x y) with (- crp a b x y) by (unfold crp; ring).
      replace (dtp b a x y) with (dtp a b x y) by (unfold dtp; ring).
      unfold Rdiv. rewrite Rinv_opp. ring. }
    destruct (Main b a) as (d & Dd & Pd).
    + apply Del_swap, D.
    + rewrite cr_swap. nra.
    + replace (crp b a x y) with (- crp a b x y) by (unfold crp; ring).
      assert (crp a b x y <> 0) by (intros E; rewrite E in S; lra). lra.
    + exists d. split; [apply Del_swap, Dd|]. rewrite !Sw in Pd. exact Pd.
Qed.
End Cover.

End Geo.
