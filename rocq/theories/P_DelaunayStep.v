(** One step of the incremental construction: the list of all Delaunay triangles of a vertex set,
    updated the way alignment.cpp does it, is the list of all Delaunay triangles of the enlarged set. *)
From Verif Require Import Base Num M_Linalg M_Helper M_Alignment P_Alignment P_DelaunayGeo P_DelaunayTag.
From Coq Require Import Permutation Reals Lra Psatz.
Local Open Scope Z_scope.

(** A triangle up to the order of its vertices. *)
Definition key3 (a b c : Z) : Z * Z * Z := (Z.min a (Z.min b c), Z.max a (Z.max b c), a + b + c).
Definition key (t : tri) : Z * Z * Z := key3 (t1 t) (t2 t) (t3 t).

Lemma key3_perm a b c a' b' c' : key3 a b c = key3 a' b' c' ->
  (a = a' /\ b = b' /\ c = c') \/ (a = a' /\ b = c' /\ c = b') \/
  (a = b' /\ b = a' /\ c = c') \/ (a = b' /\ b = c' /\ c = a') \/
  (a = c' /\ b = a' /\ c = b') \/ (a = c' /\ b = b' /\ c = a').
Proof.
  unfold key3. intros H. injection H. clear H. intros Hs Hx Hn.
  destruct (Z.le_gt_cases a b), (Z.le_gt_cases b c), (Z.le_gt_cases a c),
    (Z.le_gt_cases a' b'), (Z.le_gt_cases b' c'), (Z.le_gt_cases a' c');
  first [ exfalso; lia
        | left; repeat split; lia
        | right; left; repeat split; lia
        | right; right; left; repeat split; lia
        | right; right; right; left; repeat split; lia
        | right; right; right; right; left; repeat split; lia
        | right; right; right; right; right; repeat split; lia ].
Qed.
Lemma key3_rot a b c : key3 b c a = key3 a b c.
Proof. unfold key3. (apply (f_equal2 pair); [apply (f_equal2 pair)|]); lia. Qed.
Lemma key3_swap a b c : key3 b a c = key3 a b c.
Proof. unfold key3. (apply (f_equal2 pair); [apply (f_equal2 pair)|]); lia. Qed.
Lemma key3_swap2 a b c : key3 a c b = key3 a b c.
Proof. unfold key3. (apply (f_equal2 pair); [apply (f_equal2 pair)|]); lia. Qed.

Definition distinct (t : tri) : Prop := t1 t <> t2 t /\ t2 t <> t3 t /\ t3 t <> t1 t.

(** Third vertices of the triangles of [B] on the edge [e]. *)
Definition third (e : edge) (t : tri) : list Z :=
  if same_e e (Edge (t1 t) (t2 t)) then [t3 t]
  else if same_e e (Edge (t2 t) (t3 t)) then [t1 t]
  else if same_e e (Edge (t3 t) (t1 t)) then [t2 t] else [].
Definition thirds (e : edge) (B : list tri) : list Z := flat_map (third e) B.

Lemma cnt_third e t : distinct t -> cnt e (edges_of t) = length (third e t).
Proof.
  intros (D1 & D2 & D3). unfold edges_of. rewrite !cnt_cons. unfold third.
  destruct (same_e e (Edge (t1 t) (t2 t))) eqn:E1;
  destruct (same_e e (Edge (t2 t) (t3 t))) eqn:E2;
  destruct (same_e e (Edge (t3 t) (t1 t))) eqn:E3; try reflexivity;
  rewrite ?same_e_spec in *; cbn [e1 e2] in *; exfalso; lia.
Qed.
Lemma cnt_thirds e B : Forall distinct B -> cnt e (flat_map edges_of B) = length (thirds e B).
Proof.
  induction 1 as [|t B D _ IH]; [reflexivity|]. unfold thirds in *. cbn [flat_map].
  rewrite cnt_app, app_length, IH, cnt_third by exact D. reflexivity.
Qed.
Lemma in_third e t c : In c (third e t) -> key t = key3 (e1 e) (e2 e) c.
Proof.
  unfold third, key.
  destruct (same_e e (Edge (t1 t) (t2 t))) eqn:E1;
  [|destruct (same_e e (Edge (t2 t) (t3 t))) eqn:E2;
   [|destruct (same_e e (Edge (t3 t) (t1 t))) eqn:E3]]; rewrite ?same_e_spec in *; cbn [e1 e2 In] in *;
   intros H; (destruct H as [ <- |[]] || contradiction); unfold key3;
   match goal with H : _ \/ _ |- _ => destruct H as [ [A B] | [A B] ] end; rewrite A, B; (apply (f_equal2 pair); [apply (f_equal2 pair)|]); lia.
Qed.
Lemma third_in e t c : distinct t -> key t = key3 (e1 e) (e2 e) c -> third e t = [c].
Proof.
  intros (D1 & D2 & D3) H. apply key3_perm in H. unfold third.
  destruct (same_e e (Edge (t1 t) (t2 t))) eqn:E1;
  [|destruct (same_e e (Edge (t2 t) (t3 t))) eqn:E2;
   [|destruct (same_e e (Edge (t3 t) (t1 t))) eqn:E3]]; rewrite ?same_e_spec, ?same_e_false in *; cbn [e1 e2] in *;
  try (f_equal; lia); exfalso; lia.
Qed.
Lemma in_thirds e B c : Forall distinct B ->
  (In c (thirds e B) <-> exists t, In t B /\ key t = key3 (e1 e) (e2 e) c).
Proof.
  intros HD. rewrite Forall_forall in HD. unfold thirds. rewrite in_flat_map. split.
  - intros (t & Ht & H). exists t. split; [exact Ht|]. apply in_third, H.
  - intros (t & Ht & H). exists t. split; [exact Ht|]. rewrite (third_in e t c) by auto. left. reflexivity.
Qed.
Lemma third_le1 e t : third e t = [] \/ exists c, third e t = [c].
Proof.
  unfold third. destruct (same_e e _); [eauto|]. destruct (same_e e _); [eauto|]. destruct (same_e e _); eauto.
Qed.
Lemma thirds_NoDup e B : Forall distinct B -> NoDup (map key B) -> NoDup (thirds e B).
Proof.
  induction B as [|t B IH]; intros HD HN; [constructor|]. inversion HD; subst. inversion HN; subst.
  unfold thirds. cbn [flat_map]. destruct (third_le1 e t) as [E|(c & E)]; rewrite E; cbn [app].
  - apply IH; auto.
  - constructor; [|apply IH; auto]. intros HI. apply in_thirds in HI; [|assumption].
    destruct HI as (t' & Ht' & K). apply H3.
    assert (In c (third e t)) by (rewrite E; left; reflexivity). apply in_third in H. rewrite H, <- K.
    apply in_map. exact Ht'.
Qed.

Lemma NoDup_app_inv {A} (l1 l2 : list A) : NoDup (l1 ++ l2) -> NoDup l1 /\ NoDup l2.
Proof.
  induction l1 as [|x l1 IH]; cbn [app]; intros H; [split; [constructor|exact H]|].
  inversion H; subst. destruct (IH H3) as [P Q]. split; [|exact Q]. constructor; [|exact P].
  intros HI. apply H2. apply in_or_app. left. exact HI.
Qed.
Lemma NoDup_len1 (l : list Z) : NoDup l -> (length l = 1%nat <-> exists c, In c l /\ forall x, In x l -> x = c).
Proof.
  intros N. destruct l as [|a [|b l]]; cbn [length].
  - split; [discriminate|]. intros (c & [] & _).
  - split; [|reflexivity]. intros _. exists a. split; [left; reflexivity|]. intros x [ <- |[]]. reflexivity.
  - split; [discriminate|]. intros (c & _ & H). exfalso.
    assert (a = c) by (apply H; cbn; auto). assert (b = c) by (apply H; cbn; auto). subst.
    inversion N as [|? ? N1 _]; subst. apply N1. left. reflexivity.
Qed.
Lemma NoDup_len2 (l : list Z) : NoDup l ->
  (forall a b c, In a l -> In b l -> In c l -> a = b \/ a = c \/ b = c) -> (length l <= 2)%nat.
Proof.
  intros N H. destruct l as [|a [|b [|c l]]]; cbn [length]; try lia. exfalso.
  inversion N as [|? ? N1 N']; subst. inversion N' as [|? ? N2 N'']; subst. cbn in N1, N2.
  destruct (H a b c) as [E|[E|E]]; cbn; auto; subst; tauto.
Qed.

Section Step.
Context (X Y : Z -> R) (U : Z -> Prop) (GP : general_position X Y U).
Notation G := (G X Y). Notation cr := (cr X Y).

Definition DelT (vl : list Z) (t : tri) : Prop := Del X Y (fun k => In k vl) (t1 t) (t2 t) (t3 t).
Definition Gt (t : tri) (q : Z) : R := G (t1 t) (t2 t) (t3 t) q.

Lemma Del_key V a b c a' b' c' : key3 a b c = key3 a' b' c' -> Del X Y V a b c -> Del X Y V a' b' c'.
Proof.
  intros K D. apply key3_perm in K.
  assert (R := Del_rot X Y V a b c D). assert (R2 := Del_rot X Y V b c a R).
  destruct K as [(-> & -> & ->)|[(-> & -> & ->)|[(-> & -> & ->)|[(-> & -> & ->)|[(-> & -> & ->)|(-> & -> & ->)]]]]];
    auto using Del_swap.
Qed.
Lemma G_key a b c a' b' c' d : key3 a b c = key3 a' b' c' -> G a b c d = G a' b' c' d.
Proof.
  intros K. apply key3_perm in K.
  destruct K as [(-> & -> & ->)|[(-> & -> & ->)|[(-> & -> & ->)|[(-> & -> & ->)|[(-> & -> & ->)|(-> & -> & ->)]]]]].
  - reflexivity.
  - apply G_swap2.
  - apply G_swap.
  - rewrite G_rot. reflexivity.
  - rewrite (G_rot X Y c' a' b'). reflexivity.
  - rewrite <- (G_rot X Y a' b' c'). apply G_swap2 || (rewrite G_swap; reflexivity).
Qed.

Lemma DelT_distinct vl t : DelT vl t -> distinct t.
Proof. intros (_ & _ & _ & A & B & C & _). repeat split; auto. Qed.

(** [l] lists every Delaunay triangle of the vertices [vl], each once. *)
Definition Inv (vl : list Z) (l : list tri) : Prop :=
  (forall t, In t l -> DelT vl t) /\
  (forall a b c, Del X Y (fun k => In k vl) a b c -> exists t, In t l /\ key t = key3 a b c) /\
  NoDup (map key l).

Context (vl : list Z) (HU : forall k, In k vl -> U k) (HZ : forall k, In k vl -> 0 <= k).
Context (q : Z) (Hq : U q) (Hqv : ~ In q vl).
Context (Hull : forall a b, (0 < cr a b q)%R -> exists k, In k vl /\ (0 < cr a b k)%R).

Section Bad.
Context (B : list tri).
Context (B1 : forall t, In t B -> DelT vl t /\ (Gt t q < 0)%R).
Context (B2 : forall a b c, Del X Y (fun k => In k vl) a b c -> (G a b c q < 0)%R ->
   exists t, In t B /\ key t = key3 a b c).
Context (B3 : NoDup (map key B)).
Notation K := (flat_map edges_of B).

Lemma B_distinct : Forall distinct B.
Proof. apply Forall_forall. intros t Ht. apply (DelT_distinct vl), B1, Ht. Qed.

Lemma in_thirds_bad e c : In c (thirds e B) <->
  Del X Y (fun k => In k vl) (e1 e) (e2 e) c /\ (G (e1 e) (e2 e) c q < 0)%R.
Proof.
  rewrite in_thirds by apply B_distinct. split.
  - intros (t & Ht & Hk). destruct (B1 t Ht) as [D Bt]. split.
    + eapply Del_key; [exact Hk|exact D].
    + rewrite <- (G_key _ _ _ _ _ _ q Hk). exact Bt.
  - intros [D Bt]. apply B2; assumption.
Qed.

Lemma cnt_le2 e : (cnt e K <= 2)%nat.
Proof.
  rewrite cnt_thirds by apply B_distinct. apply NoDup_len2; [apply thirds_NoDup; [apply B_distinct|exact B3]|].
  intros a b c Ha Hb Hc. apply in_thirds_bad in Ha, Hb, Hc.
  eapply (Del_edge_two X Y U GP (fun k => In k vl)); [exact HU|apply Ha|apply Hb|apply Hc].
Qed.

Lemma cnt_one e : In (e1 e) vl -> In (e2 e) vl -> e1 e <> e2 e ->
  (cnt e K = 1%nat <-> Del X Y (fun k => In k (q :: vl)) (e1 e) (e2 e) q).
Proof.
  intros I1 I2 N. rewrite cnt_thirds by apply B_distinct.
  rewrite NoDup_len1 by (apply thirds_NoDup; [apply B_distinct|exact B3]).
  rewrite (Del_new X Y U GP vl HU q Hq Hqv Hull (e1 e) (e2 e) I1 I2 N). split.
  - intros (c & Hc & Hu). exists c. apply in_thirds_bad in Hc. destruct Hc as [Hc1 Hc2].
    split; [exact Hc1|]. split; [exact Hc2|]. intros c' D' B'. apply Hu. apply in_thirds_bad. auto.
  - intros (c & D & Bc & Hu). exists c. split; [apply in_thirds_bad; auto|].
    intros x Hx. apply in_thirds_bad in Hx. apply Hu; apply Hx.
Qed.

Lemma K_valid e : In e K -> In (e1 e) vl /\ In (e2 e) vl /\ e1 e <> e2 e.
Proof.
  intros H. apply in_flat_map in H. destruct H as (t & Ht & He).
  destruct (B1 t Ht) as [(V1 & V2 & V3 & D1 & D2 & D3 & _) _].
  cbn in He. destruct He as [ <- |[ <- |[ <- |[]]]]; cbn; auto.
Qed.
Lemma K_ok : Forall ok_e K.
Proof.
  apply Forall_forall. intros e He. apply K_valid in He. destruct He as (A & C & N).
  right. split; [apply HZ, A|]. split; [apply HZ, C|exact N].
Qed.

Lemma tag_K : filter live (tag_edges (length K) K) = singles K.
Proof. apply tag_edges_singles; [reflexivity|apply K_ok|]. intros e _ _. apply cnt_le2. Qed.

Lemma singles_del e : In e (singles K) ->
  In (e1 e) vl /\ In (e2 e) vl /\ e1 e <> e2 e /\ Del X Y (fun k => In k (q :: vl)) (e1 e) (e2 e) q.
Proof.
  intros H. apply filter_In in H. destruct H as [H1 H2]. apply andb_true_iff in H2. destruct H2 as [_ H2].
  apply Nat.eqb_eq in H2. destruct (K_valid e H1) as (A & C & N). split; [exact A|]. split; [exact C|]. split; [exact N|]. apply cnt_one; auto.
Qed.
Lemma del_singles a b : In a vl -> In b vl -> a <> b -> Del X Y (fun k => In k (q :: vl)) a b q ->
  exists e, In e (singles K) /\ key3 (e1 e) (e2 e) q = key3 a b q.
Proof.
  intros A C N D. assert (E := proj2 (cnt_one (Edge a b) A C N) D).
  destruct (cnt_pos (Edge a b) K) as (x & Hx & Sx); [rewrite E; constructor|].
  exists x. split.
  - apply filter_In. split; [exact Hx|]. rewrite <- (cnt_same _ _ _ Sx), E.
    rewrite live_valid; [reflexivity|]. destruct (K_valid x Hx) as (P & Q & T).
    split; [apply HZ, P|]. split; [apply HZ, Q|exact T].
  - apply same_e_spec in Sx. cbn [e1 e2] in Sx. destruct Sx as [ [P Q] | [P Q] ]; rewrite <- P, <- Q; [reflexivity|].
    apply key3_swap.
Qed.

(** *** At most two more triangles per point *)
Definition sep (t : tri) : list edge :=
  if Rlt_dec (cr (t1 t) (t2 t) (t3 t) * cr (t1 t) (t2 t) q) 0 then [Edge (t1 t) (t2 t)]
  else if Rlt_dec (cr (t2 t) (t3 t) (t1 t) * cr (t2 t) (t3 t) q) 0 then [Edge (t2 t) (t3 t)]
  else if Rlt_dec (cr (t3 t) (t1 t) (t2 t) * cr (t3 t) (t1 t) q) 0 then [Edge (t3 t) (t1 t)] else [].

(** A separating edge of t has t's third vertex on the side away from q. *)
Lemma sep_spec t e : DelT vl t -> In e (sep t) -> exists c, key t = key3 (e1 e) (e2 e) c /\
  Del X Y (fun k => In k vl) (e1 e) (e2 e) c /\ (cr (e1 e) (e2 e) c * cr (e1 e) (e2 e) q < 0)%R.
Proof.
  intros D. unfold sep. destruct (Rlt_dec _ 0) as [H|_]; [|destruct (Rlt_dec _ 0) as [H|_]; [|destruct (Rlt_dec _ 0) as [H|_]; [|intros []]]];
    intros [ <- |[]]; cbn [e1 e2].
  - exists (t3 t). split; [reflexivity|]. split; [exact D|exact H].
  - exists (t1 t). split; [symmetry; apply key3_rot|]. split; [apply Del_rot, D|exact H].
  - exists (t2 t). split; [unfold key; apply key3_rot|].
    split; [apply Del_rot, Del_rot, D|exact H].
Qed.
Lemma sep_nil t : DelT vl t -> sep t = [] -> inside X Y (t1 t) (t2 t) (t3 t) (X q) (Y q).
Proof.
  intros D. assert (D' := D). destruct D' as (V1 & V2 & V3 & N1 & N2 & N3 & _).
  assert (NQ : forall k, In k vl -> k <> q) by (intros k Hk ->; contradiction).
  assert (Z0 : cr (t1 t) (t2 t) (t3 t) <> 0%R) by (apply (gp_cr X Y U GP); auto).
  assert (Z1 : cr (t1 t) (t2 t) q <> 0%R) by (apply (gp_cr X Y U GP); auto).
  assert (Z2 : cr (t2 t) (t3 t) q <> 0%R) by (apply (gp_cr X Y U GP); auto).
  assert (Z3 : cr (t3 t) (t1 t) q <> 0%R) by (apply (gp_cr X Y U GP); auto).
  unfold sep. destruct (Rlt_dec _ 0) as [|H1]; [discriminate|].
  destruct (Rlt_dec _ 0) as [|H2]; [discriminate|]. destruct (Rlt_dec _ 0) as [|H3]; [discriminate|]. intros _.
  rewrite (cr_rot X Y (t1 t) (t2 t) (t3 t)) in H2. rewrite <- (cr_rot X Y (t3 t) (t1 t) (t2 t)) in H3.
  change (crp X Y (t1 t) (t2 t) (X q) (Y q)) with (cr (t1 t) (t2 t) q).
  unfold inside. change (crp X Y (t1 t) (t2 t) (X q) (Y q)) with (cr (t1 t) (t2 t) q).
  change (crp X Y (t2 t) (t3 t) (X q) (Y q)) with (cr (t2 t) (t3 t) q).
  change (crp X Y (t3 t) (t1 t) (X q) (Y q)) with (cr (t3 t) (t1 t) q).
  assert (T : forall u v, u <> 0%R -> v <> 0%R -> ~ (u * v < 0)%R -> (0 < u * v)%R).
  { intros u v Hu Hv H. assert (u * v <> 0)%R by (apply Rmult_integral_contrapositive_currified; auto). lra. }
  repeat split; apply T; auto.
Qed.

Lemma sep_cnt t e : In t B -> In e (sep t) -> (2 <= cnt e K)%nat.
Proof.
  intros Ht He. destruct (B1 t Ht) as [D Bt]. destruct (sep_spec t e D He) as (c & Hk & Dc & Hs).
  assert (Bc : (G (e1 e) (e2 e) c q < 0)%R) by (rewrite <- (G_key _ _ _ _ _ _ q Hk); exact Bt).
  destruct (bad_neighbour X Y U GP vl HU q Hull (e1 e) (e2 e) c Dc Bc Hs) as (d & Dd & Bd & Sd).
  rewrite cnt_thirds by apply B_distinct.
  assert (I1 : In c (thirds e B)) by (apply in_thirds_bad; auto).
  assert (I2 : In d (thirds e B)) by (apply in_thirds_bad; auto).
  assert (Ncd : c <> d) by (intros ->; lra).
  destruct (thirds e B) as [|x [|y l]]; [contradiction| |cbn [length]; lia].
  cbn in I1, I2. destruct I1 as [ -> |[]]. destruct I2 as [ -> |[]]. contradiction.
Qed.

Lemma sep_class t t' e e' : DelT vl t -> DelT vl t' -> In e (sep t) -> In e' (sep t') -> same_e e e' = true -> key t = key t'.
Proof.
  intros D D' H H' S. destruct (sep_spec t e D H) as (c & Hk & Dc & Hs).
  destruct (sep_spec t' e' D' H') as (c' & Hk' & Dc' & Hs').
  apply same_e_spec in S.
  assert (E : key t' = key3 (e1 e) (e2 e) c' /\ Del X Y (fun k => In k vl) (e1 e) (e2 e) c' /\
     (cr (e1 e) (e2 e) c' * cr (e1 e) (e2 e) q < 0)%R).
  { destruct S as [ [P Q] | [P Q] ]; rewrite P, Q; [auto|]. split; [rewrite key3_swap; exact Hk'|].
    split; [apply Del_swap, Dc'|]. rewrite (cr_swap X Y (e1 e') (e2 e') c'), (cr_swap X Y (e1 e') (e2 e') q). lra. }
  destruct E as (Ek & Ed & Es). clear S Hs' Dc' Hk' H'.
  assert (c = c'); [|subst; congruence].
  eapply (Del_same_side X Y (fun k => In k vl)); [exact Dc|exact Ed|].
  set (u := cr (e1 e) (e2 e) c) in *. set (v := cr (e1 e) (e2 e) c') in *. set (w := cr (e1 e) (e2 e) q) in *.
  assert (0 < (u * v) * (w * w))%R by nra. assert (0 <= w * w)%R by nra. nra.
Qed.

Lemma sep_le1 t : sep t = [] \/ exists e, sep t = [e].
Proof. unfold sep. destruct (Rlt_dec _ 0); [eauto|]. destruct (Rlt_dec _ 0); [eauto|]. destruct (Rlt_dec _ 0); eauto. Qed.

Lemma inside_key t t' : DelT vl t -> DelT vl t' -> sep t = [] -> sep t' = [] -> key t = key t'.
Proof.
  intros D D' S S'. assert (I := sep_nil t D S). assert (I' := sep_nil t' D' S').
  assert (E := Del_disjoint X Y U GP _ _ _ _ _ _ _ (X q) (Y q) HU D D' I I').
  destruct D as (_ & _ & _ & N1 & N2 & N3 & _). destruct D' as (_ & _ & _ & M1 & M2 & M3 & _).
  unfold key. set (a := t1 t) in *. set (b := t2 t) in *. set (c := t3 t) in *.
  set (a' := t1 t') in *. set (b' := t2 t') in *. set (c' := t3 t') in *.
  assert (Ea := proj1 (E a) (or_introl eq_refl)). assert (Eb := proj1 (E b) (or_intror (or_introl eq_refl))).
  assert (Ec := proj1 (E c) (or_intror (or_intror eq_refl))). clear E I I'. clearbody a b c a' b' c'.
  unfold key3. (apply (f_equal2 pair); [apply (f_equal2 pair)|]); lia.
Qed.

Lemma sep_list_gen : forall T, (forall t, In t T -> DelT vl t) -> NoDup (map key T) ->
  ForallOrdPairs (fun x y => same_e x y = false) (flat_map sep T) /\
  (length T <= length (flat_map sep T) + 1)%nat /\
  ((exists t, In t T /\ sep t = []) \/ (length T <= length (flat_map sep T))%nat).
Proof.
  induction T as [|t T IH]; intros HD HN.
  - cbn. split; [constructor|]. split; [lia|right; lia].
  - inversion HN as [|? ? Hn HN']; subst.
    destruct (IH (fun t' H => HD t' (or_intror H)) HN') as (P & L & E). cbn [flat_map].
    assert (Dt := HD t (or_introl eq_refl)).
    destruct (sep_le1 t) as [S|(e & S)]; rewrite S; cbn [app length].
    + split; [exact P|]. split; [|left; exists t; split; [left; reflexivity|exact S]].
      destruct E as [(t' & Ht' & S')|E]; [|lia]. exfalso. apply Hn.
      rewrite (inside_key t t' Dt (HD t' (or_intror Ht')) S S'). apply in_map, Ht'.
    + split; [|split; [lia|]].
      * constructor; [|exact P]. apply Forall_forall. intros e' He'. apply in_flat_map in He'.
        destruct He' as (t' & Ht' & He'). destruct (same_e e e') eqn:Es; [exfalso|reflexivity]. apply Hn.
        rewrite (sep_class t t' e e' Dt (HD t' (or_intror Ht'))); [apply in_map, Ht'|rewrite S; left; reflexivity|exact He'|exact Es].
      * destruct E as [(t' & Ht' & S')|E]; [left; exists t'; split; [right; exact Ht'|exact S']|right; lia].
Qed.

Lemma singles_bound : (length (singles K) <= length B + 2)%nat.
Proof.
  destruct (sep_list_gen B (fun t H => proj1 (B1 t H)) B3) as (P & L & _).
  assert (Q := singles_count (flat_map sep B) K).
  assert (LK : length K = (3 * length B)%nat).
  { clear. induction B as [|t B' IH]; [reflexivity|]. cbn [flat_map]. rewrite app_length, IH. cbn [edges_of length]. lia. }
  assert ((length (singles K) + 2 * length (flat_map sep B) <= length K)%nat); [|lia].
  apply Q; [|exact P]. intros e He. apply in_flat_map in He. destruct He as (t & Ht & He). eapply sep_cnt; eauto.
Qed.
End Bad.

(** The step: [keep] and [B] partition the old list by "q inside the circumcircle". *)
Theorem step (l keep B : list tri) :
  Inv vl l -> Permutation l (keep ++ B) ->
  (forall t, In t keep -> (0 < Gt t q)%R) -> (forall t, In t B -> (Gt t q < 0)%R) ->
  let K := flat_map edges_of B in
  let new := map (fun e => Tri (e1 e) (e2 e) q) (filter live (tag_edges (length K) K)) in
  Inv (q :: vl) (keep ++ new) /\ (length (keep ++ new) <= length l + 2)%nat.
Proof.
  intros (I1 & I2 & I3) HP Hk Hb K new.
  assert (N : NoDup (map key (keep ++ B))).
  { eapply Permutation_NoDup; [|exact I3]. apply Permutation_map, HP. }
  rewrite map_app in N.
  assert (NB : NoDup (map key B)) by (apply (NoDup_app_inv _ _ N)).
  assert (Nk : NoDup (map key keep)) by (apply (NoDup_app_inv _ _ N)).
  assert (Il : forall t, In t l <-> In t keep \/ In t B).
  { intros t. rewrite <- in_app_iff. split; apply Permutation_in; [exact HP|symmetry; exact HP]. }
  assert (B1 : forall t, In t B -> DelT vl t /\ (Gt t q < 0)%R).
  { intros t Ht. split; [apply I1, Il; auto|apply Hb, Ht]. }
  assert (B2 : forall a b c, Del X Y (fun k => In k vl) a b c -> (G a b c q < 0)%R ->
     exists t, In t B /\ key t = key3 a b c).
  { intros a b c D Hg. destruct (I2 a b c D) as (t & Ht & Hkey). apply Il in Ht. destruct Ht as [Ht|Ht]; [|eauto].
    exfalso. specialize (Hk t Ht). unfold Gt in Hk. rewrite (G_key _ _ _ _ _ _ q Hkey) in Hk. lra. }
  assert (Enew : new = map (fun e => Tri (e1 e) (e2 e) q) (singles K)).
  { unfold new, K. rewrite (tag_K B B1 B2 NB). reflexivity. }
  rewrite Enew. clear new Enew. split.
  - split; [|split].
    + intros t Ht. apply in_app_or in Ht. destruct Ht as [Ht|Ht].
      * assert (D := I1 t (proj2 (Il t) (or_introl Ht))). assert (D' := D). destruct D' as (V1 & V2 & V3 & _).
        apply (Del_old X Y U vl q Hq Hqv Hull _ _ _ V1 V2 V3). split; [exact D|apply Hk, Ht].
      * apply in_map_iff in Ht. destruct Ht as (e & <- & He). apply (singles_del B B1 B2 NB e He).
    + intros a b c D.
      assert (Hv : forall k, In k (q :: vl) -> k = q \/ In k vl) by (intros k [ <- |H]; auto).
      assert (New : forall a b, a <> q -> b <> q -> Del X Y (fun k => In k (q :: vl)) a b q ->
        exists t, In t (keep ++ map (fun e => Tri (e1 e) (e2 e) q) (singles K)) /\ key t = key3 a b q).
      { intros a0 b0 Na Nb D0. assert (D1 := D0). destruct D1 as (Va & Vb & _ & Nab & _).
        destruct (Hv a0 Va) as [E|Ia]; [contradiction|]. destruct (Hv b0 Vb) as [E|Ib]; [contradiction|].
        destruct (del_singles B B1 B2 NB a0 b0 Ia Ib Nab D0) as (e & He & Ek).
        exists (Tri (e1 e) (e2 e) q). split; [|exact Ek]. apply in_or_app. right.
        apply in_map_iff. exists e. auto. }
      assert (D1 := D). destruct D1 as (Va & Vb & Vc & N1 & N2 & N3 & _).
      destruct (Hv c Vc) as [ -> |Ic].
      { apply New; auto. }
      destruct (Hv b Vb) as [ -> |Ib].
      { rewrite <- key3_swap2. apply New; auto. apply Del_swap, Del_rot, Del_rot, D. }
      destruct (Hv a Va) as [ -> |Ia].
      { rewrite <- key3_rot. apply New; auto. apply Del_rot, D. }
      apply (Del_old X Y U vl q Hq Hqv Hull _ _ _ Ia Ib Ic) in D. destruct D as [D Hg].
      destruct (I2 a b c D) as (t & Ht & Hkey). exists t. split; [|exact Hkey]. apply in_or_app. left.
      apply Il in Ht. destruct Ht as [Ht|Ht]; [exact Ht|exfalso].
      specialize (Hb t Ht). unfold Gt in Hb. rewrite (G_key _ _ _ _ _ _ q Hkey) in Hb. lra.
    + rewrite map_app, map_map. cbn [key t1 t2 t3].
      assert (Sd : forall e, In e (singles K) -> In (e1 e) vl /\ In (e2 e) vl /\ e1 e <> e2 e).
      { intros e He. destruct (singles_del B B1 B2 NB e He) as (? & ? & ? & _). auto. }
      assert (Nn : NoDup (map (fun e => key3 (e1 e) (e2 e) q) (singles K))).
      { assert (Gen : forall m, (forall e, In e m -> In (e1 e) vl /\ In (e2 e) vl /\ e1 e <> e2 e) ->
            (forall e, In e m -> cnt e m = 1%nat) -> NoDup (map (fun e => key3 (e1 e) (e2 e) q) m)).
        { induction m as [|e m IH]; intros H1 H2; [constructor|]. cbn [map]. constructor.
          - intros HI. apply in_map_iff in HI. destruct HI as (e' & Ek & He').
            assert (C := H2 e (or_introl eq_refl)). rewrite cnt_cons, same_e_refl in C.
            assert (P := cnt_In e' m He').
            assert (same_e e e' = true).
            { apply same_e_spec. apply key3_perm in Ek.
              destruct (H1 e (or_introl eq_refl)) as (P1 & P2 & _).
              assert (e1 e <> q) by (intros E; rewrite E in P1; contradiction).
              assert (e2 e <> q) by (intros E; rewrite E in P2; contradiction). lia. }
            rewrite (cnt_same _ _ _ H) in C. lia.
          - apply IH; [intros; apply H1; right; assumption|].
            intros e' He'. assert (C := H2 e' (or_intror He')). rewrite cnt_cons in C.
            assert (P := cnt_In e' m He'). destruct (same_e e' e); lia. }
        apply Gen; [exact Sd|]. intros e He. apply singles_distinct, He. }
      clear - Nk Nn Sd I1 Il Hqv.
      assert (Gen : forall l1 l2 : list (Z * Z * Z), NoDup l1 -> NoDup l2 -> (forall x, In x l1 -> ~ In x l2) -> NoDup (l1 ++ l2)).
      { induction l1 as [|x l1 IH]; intros l2 H1 H2 H3; [exact H2|]. inversion H1; subst. cbn [app]. constructor.
        - rewrite in_app_iff. intros [H|H]; [contradiction|]. apply (H3 x); [left; reflexivity|exact H].
        - apply IH; auto. intros y Hy. apply H3. right. exact Hy. }
      apply Gen; [exact Nk|exact Nn|]. intros x Hx Hx'.
      apply in_map_iff in Hx. destruct Hx as (t & <- & Ht). apply in_map_iff in Hx'. destruct Hx' as (e & Ek & He).
      destruct (I1 t (proj2 (Il t) (or_introl Ht))) as (V1 & V2 & V3 & _).
      apply key3_perm in Ek.
      assert (Hc : q = t1 t \/ q = t2 t \/ q = t3 t) by (clear - Ek; cbn in Ek; intuition).
      destruct Hc as [E|[E|E]]; rewrite E in Hqv; contradiction.
  - rewrite app_length, map_length, (Permutation_length HP), app_length.
    pose proof (singles_bound B B1 B2 NB) as HS. subst K. lia.
Qed.
End Step.
