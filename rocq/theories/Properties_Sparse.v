(** C133, C134: sparse matrices. *)
From Verif Require Import Base Num M_Sparse.
From Coq Require Import Floats.SpecFloat Arith.
Open Scope Z_scope.

(** ** specification: an ordinary matrix *)
Section Spec.
Context (N : Num).
(** the last value written to an element, or zero *)
Fixpoint last_written (past : list (sop N)) (row col : Z) : F N :=   (* newest first *)
  match past with
  | [] => fZ N 0
  | SWrite r c v :: past => if (r =? row) && (c =? col) then v else last_written past row col
  | SRead _ _ :: past => last_written past row col
  end.
Fixpoint reads_of (past ops : list (sop N)) : list (F N) :=
  match ops with
  | [] => []
  | SRead r c :: ops => last_written past r c :: reads_of (SRead r c :: past) ops
  | o :: ops => reads_of (o :: past) ops
  end.
(** the elements written *)
Fixpoint written (ops : list (sop N)) : list (Z * Z) :=
  match ops with
  | [] => []
  | SWrite r c _ :: ops => (r, c) :: written ops
  | SRead _ _ :: ops => written ops
  end.
Definition element (o : sop N) : Z * Z := match o with SWrite r c _ => (r, c) | SRead r c => (r, c) end.
Definition inside (cols : Z) (o : sop N) : Prop := 0 <= fst (element o) /\ 0 <= snd (element o) < cols.
Definition nonzero (o : sop N) : Prop := match o with SWrite _ _ v => feq N v (fZ N 0) = false | SRead _ _ => True end.
(** at most n different elements are written *)
Definition fits (n : nat) (ops : list (sop N)) : Prop := exists l, (length l <= n)%nat /\ incl (written ops) l.
End Spec.

(** ** proof *)
Section Proof.
Context (N : Num) (cols : Z) (n : nat) (Hn : (0 < n)%nat) (Hz : feq N (fZ N 0) (fZ N 0) = true).
Notation item := (option (Z * F N)).
Notation slot := (slot_of n).
Definition live (x : item) (k : Z) (v : F N) : Prop := x = Some (k, v) /\ feq N v (fZ N 0) = false.
Definition dead (x : item) : Prop := match x with None => True | Some (_, v) => feq N v (fZ N 0) = true end.

Lemma slot_lt k i : (slot k i < n)%nat.
Proof. unfold slot_of. pose proof (Z.mod_pos_bound (Z.rem k (Z.of_nat n) + Z.of_nat i) (Z.of_nat n) ltac:(lia)). lia. Qed.
Lemma slot_inj k i j : 0 <= k -> (i < n)%nat -> (j < n)%nat -> slot k i = slot k j -> i = j.
Proof.
  intros Hk Hi Hj E. unfold slot_of in E. rewrite Z.rem_mod_nonneg in E by lia.
  set (h := k mod Z.of_nat n) in E. assert (0 <= h < Z.of_nat n) by (apply Z.mod_pos_bound; lia).
  assert (G : forall q, (q < n)%nat -> (h + Z.of_nat q) mod Z.of_nat n = if h + Z.of_nat q <? Z.of_nat n then h + Z.of_nat q else h + Z.of_nat q - Z.of_nat n).
  { intros q Hq. destruct (Z.ltb_spec (h + Z.of_nat q) (Z.of_nat n)); [apply Z.mod_small; lia|].
    rewrite <- (Z_mod_plus_full _ (-1)). apply Z.mod_small. lia. }
  rewrite !G in E by assumption. destruct (Z.ltb_spec (h + Z.of_nat i) (Z.of_nat n)), (Z.ltb_spec (h + Z.of_nat j) (Z.of_nat n)); lia.
Qed.

(** the table represents the map [M] *)
Definition path_live (t : list item) (k : Z) (d : nat) : Prop :=
  forall i, (i < d)%nat -> exists k' v', live (nth (slot k i) t None) k' v' /\ k' <> k.
Definition Rep (t : list item) (M : Z -> option (F N)) : Prop :=
  length t = n /\
  (forall s k v, (s < n)%nat -> live (nth s t None) k v ->
     0 <= k /\ M k = Some v /\ exists d, (d < n)%nat /\ s = slot k d /\ path_live t k d) /\
  (forall k v, M k = Some v -> exists s, (s < n)%nat /\ live (nth s t None) k v).

Lemma dead_or_live x : dead x \/ exists k v, live x k v.
Proof.
  destruct x as [[k v]|]; [|left; exact I]. cbn. destruct (feq N v (fZ N 0)) eqn:E; [left; reflexivity|].
  right. exists k, v. split; [reflexivity|exact E].
Qed.
Lemma live_not_dead x k v : live x k v -> dead x -> False.
Proof. intros [-> E]. cbn. congruence. Qed.
Lemma live_inj x k v k' v' : live x k v -> live x k' v' -> k = k' /\ v = v'.
Proof. intros [-> _] [E _]. injection E as -> ->. split; reflexivity. Qed.

(** the loop, started behind a prefix of live slots with other keys *)
Lemma probe_spec t k : length t = n -> forall is,
  (forall i, In i is -> (i < n)%nat) ->
  (exists pre d post, is = pre ++ d :: post /\
     (forall i, In i pre -> exists k' v', live (nth (slot k i) t None) k' v' /\ k' <> k) /\
     ((exists v, live (nth (slot k d) t None) k v /\ probe N n t k is = (t, Some (slot k d))) \/
      (dead (nth (slot k d) t None) /\ exists t', upd t (slot k d) (Some (k, fZ N 0)) = Some t' /\ probe N n t k is = (t', Some (slot k d))))) \/
  ((forall i, In i is -> exists k' v', live (nth (slot k i) t None) k' v' /\ k' <> k) /\ probe N n t k is = (t, None)).
Proof.
  intros Hlen. induction is as [|i is IH]; intros Hin.
  - right. split; [intros i []|reflexivity].
  - cbn [probe]. cbv zeta. assert (Hi : (slot k i < n)%nat) by apply slot_lt. destruct (dead_or_live (nth (slot k i) t None)) as [Hd|(k' & v' & Hl)].
    + left. exists [], i, is. split; [reflexivity|]. split; [intros j []|]. right. split; [exact Hd|].
      destruct (upd_some t (slot k i) (Some (k, fZ N 0)) ltac:(lia)) as [t' E]. exists t'. split; [exact E|].
      destruct (nth (slot k i) t None) as [[k0 v0]|]; [cbn in Hd; rewrite Hd|]; cbv zeta; rewrite E; reflexivity.
    + destruct Hl as [E El]. rewrite E, El. destruct (Z.eqb_spec k' k) as [->|Hne].
      * left. exists [], i, is. split; [reflexivity|]. split; [intros j []|]. left. exists v'. split; [split; assumption|reflexivity].
      * destruct IH as [(pre & d & post & -> & Hpre & Hc)|[Hall Hc]]; [intros; apply Hin; right; assumption| |].
        -- left. exists (i :: pre), d, post. split; [reflexivity|]. split; [|exact Hc].
           intros j [<-|Hj]; [exists k', v'; split; [split; assumption|exact Hne]|apply Hpre; exact Hj].
        -- right. split; [|exact Hc]. intros j [<-|Hj]; [exists k', v'; split; [split; assumption|exact Hne]|apply Hall; exact Hj].
Qed.
Lemma seq_split_at pre d post : seq 0 n = pre ++ d :: post -> (d < n)%nat /\ forall i, (i < d)%nat -> In i pre.
Proof.
  intros E. assert (length pre = d).
  { assert (X : nth (length pre) (seq 0 n) 0%nat = d) by (rewrite E, app_nth2, Nat.sub_diag by lia; reflexivity).
    assert (L : (length pre < n)%nat) by (rewrite <- (seq_length n 0), E, app_length; cbn; lia).
    rewrite seq_nth in X by exact L. lia. }
  assert (L : (length pre < n)%nat) by (rewrite <- (seq_length n 0), E, app_length; cbn; lia).
  split; [lia|]. intros i Hi. assert (X : nth i (seq 0 n) 0%nat = i) by (apply seq_nth; lia).
  rewrite E, app_nth1 in X by lia. rewrite <- X. apply nth_In. lia.
Qed.

(** replacing a dead slot by a dead one changes nothing *)
Lemma upd_nth' (t : list item) s x t' i : upd t s x = Some t' -> nth i t' None = if Nat.eqb i s then x else nth i t None.
Proof. intros E. apply (upd_nth t s x t' i None E). Qed.
Lemma Rep_dead t s x t' M : Rep t M -> dead (nth s t None) -> dead x -> upd t s x = Some t' -> Rep t' M.
Proof.
  intros (L & R1 & R2) Hd Hx E. split; [rewrite (upd_length _ _ _ _ E); exact L|].
  assert (G : forall i k v, live (nth i t' None) k v <-> live (nth i t None) k v).
  { intros i k v. rewrite (upd_nth' _ _ _ _ i E). destruct (Nat.eqb_spec i s) as [->|]; [|reflexivity].
    split; intros H; exfalso; eapply live_not_dead; eauto. }
  split.
  - intros i k v Hi Hl. apply G in Hl. destruct (R1 i k v Hi Hl) as (K1 & K2 & d & Hd' & Es & Hp).
    split; [exact K1|]. split; [exact K2|]. exists d. split; [exact Hd'|]. split; [exact Es|].
    intros j Hj. destruct (Hp j Hj) as (k' & v' & Hl' & Hne). exists k', v'. split; [apply G; exact Hl'|exact Hne].
  - intros k v HM. destruct (R2 k v HM) as (q & Hq & Hl). exists q. split; [exact Hq|]. apply G. exact Hl.
Qed.
Lemma live_unique t M s s' k v v' : Rep t M -> (s < n)%nat -> (s' < n)%nat ->
  live (nth s t None) k v -> live (nth s' t None) k v' -> s = s'.
Proof.
  intros (L & R1 & _) Hs Hs' H H'. destruct (R1 _ _ _ Hs H) as (_ & _ & d & Hd & -> & Hp).
  destruct (R1 _ _ _ Hs' H') as (_ & _ & d' & Hd' & -> & Hp').
  destruct (lt_eq_lt_dec d d') as [[Hlt| ->]|Hlt]; [|reflexivity|].
  - destruct (Hp' d Hlt) as (k1 & v1 & Hl & Hne). destruct (live_inj _ _ _ _ _ Hl H). congruence.
  - destruct (Hp d' Hlt) as (k1 & v1 & Hl & Hne). destruct (live_inj _ _ _ _ _ Hl H'). congruence.
Qed.
(** overwriting a slot of key k (live, or dead at the end of a live path) by a live value *)
Lemma Rep_put t k d v t' M : 0 <= k -> (d < n)%nat -> Rep t M -> feq N v (fZ N 0) = false -> path_live t k d ->
  ((exists v0, live (nth (slot k d) t None) k v0) \/ (dead (nth (slot k d) t None) /\ M k = None)) ->
  upd t (slot k d) (Some (k, v)) = Some t' -> Rep t' (fun q => if q =? k then Some v else M q).
Proof.
  intros Hk Hd HR Hv Hpath Hs E. pose proof HR as (L & R1 & R2). split; [rewrite (upd_length _ _ _ _ E); exact L|].
  assert (Here : live (nth (slot k d) t' None) k v).
  { rewrite (upd_nth' _ _ _ _ _ E), Nat.eqb_refl. split; [reflexivity|exact Hv]. }
  assert (There : forall i, i <> slot k d -> nth i t' None = nth i t None).
  { intros i Hi. rewrite (upd_nth' _ _ _ _ i E), (proj2 (Nat.eqb_neq _ _)) by exact Hi. reflexivity. }
  assert (Keep : forall i k1 v1, live (nth i t None) k1 v1 -> exists v2, live (nth i t' None) k1 v2).
  { intros i k1 v1 Hl. destruct (Nat.eq_dec i (slot k d)) as [->|Hne]; [|exists v1; rewrite There by exact Hne; exact Hl].
    destruct Hs as [[v0 H0]|[H0 _]]; [|exfalso; eapply live_not_dead; eauto].
    destruct (live_inj _ _ _ _ _ Hl H0) as [-> _]. exists v. exact Here. }
  assert (KeepP : forall k1 d1, path_live t k1 d1 -> path_live t' k1 d1).
  { intros k1 d1 Hp i Hi. destruct (Hp i Hi) as (k' & v' & Hl & Hne). destruct (Keep _ _ _ Hl) as [v2 Hl2]. exists k', v2. split; assumption. }
  assert (Only : forall i v1, (i < n)%nat -> live (nth i t None) k v1 -> i = slot k d).
  { intros i v1 Hi Hl. destruct Hs as [[v0 H0]|[_ H0]].
    - eapply live_unique; eauto. apply slot_lt.
    - destruct (R1 _ _ _ Hi Hl) as (_ & HM & _). congruence. }
  split.
  - intros i k1 v1 Hi Hl. destruct (Nat.eq_dec i (slot k d)) as [->|Hne].
    + destruct (live_inj _ _ _ _ _ Hl Here) as [-> ->]. split; [exact Hk|]. split; [rewrite Z.eqb_refl; reflexivity|].
      exists d. split; [exact Hd|]. split; [reflexivity|apply KeepP; exact Hpath].
    + rewrite There in Hl by exact Hne. destruct (R1 i k1 v1 Hi Hl) as (K1 & K2 & d1 & Hd1 & E1 & Hp).
      split; [exact K1|]. split.
      * destruct (Z.eqb_spec k1 k) as [->|]; [|exact K2]. exfalso. apply Hne. eapply Only; eauto.
      * exists d1. split; [exact Hd1|]. split; [exact E1|apply KeepP; exact Hp].
  - intros k1 v1 HM. destruct (Z.eqb_spec k1 k) as [->|Hne].
    + injection HM as <-. exists (slot k d). split; [apply slot_lt|exact Here].
    + destruct (R2 k1 v1 HM) as (s & Hs' & Hl). exists s. split; [exact Hs'|].
      destruct (Nat.eq_dec s (slot k d)) as [->|Hns]; [|rewrite There by exact Hns; exact Hl].
      exfalso. destruct Hs as [[v0 H0]|[H0 _]]; [|eapply live_not_dead; eauto].
      destruct (live_inj _ _ _ _ _ Hl H0). congruence.
Qed.

(** what an access finds *)
Lemma access_spec t M k : Rep t M -> 0 <= k ->
  (exists d, (d < n)%nat /\ path_live t k d /\
     ((exists v, M k = Some v /\ live (nth (slot k d) t None) k v /\ probe N n t k (seq 0 n) = (t, Some (slot k d))) \/
      (M k = None /\ dead (nth (slot k d) t None) /\ exists t', upd t (slot k d) (Some (k, fZ N 0)) = Some t' /\ probe N n t k (seq 0 n) = (t', Some (slot k d))))) \/
  (M k = None /\ (forall s, (s < n)%nat -> exists k' v', live (nth s t None) k' v') /\ probe N n t k (seq 0 n) = (t, None)).
Proof.
  intros HR Hk. pose proof HR as (L & R1 & R2).
  destruct (probe_spec t k L (seq 0 n)) as [(pre & d & post & E & Hpre & Hc)|[Hall Hc]]; [intros i Hi; apply in_seq in Hi; lia| |].
  - left. destruct (seq_split_at _ _ _ E) as [Hd Hin]. exists d. split; [exact Hd|].
    assert (Hp : path_live t k d) by (intros i Hi; apply Hpre, Hin, Hi). split; [exact Hp|].
    destruct Hc as [(v & Hl & Ep)|(Hdead & t' & Eu & Ep)].
    + left. exists v. destruct (R1 _ _ _ (slot_lt k d) Hl) as (_ & HM & _). split; [exact HM|]. split; assumption.
    + right. split; [|split; [exact Hdead|exists t'; split; assumption]].
      destruct (M k) as [v|] eqn:HM; [|reflexivity]. exfalso. destruct (R2 k v HM) as (s & Hs & Hl).
      destruct (R1 _ _ _ Hs Hl) as (_ & _ & d1 & Hd1 & -> & Hp1).
      destruct (lt_eq_lt_dec d d1) as [[Hlt| ->]|Hlt].
      * destruct (Hp1 d Hlt) as (k' & v' & Hl' & _). eapply live_not_dead; eauto.
      * eapply live_not_dead; eauto.
      * destruct (Hp d1 Hlt) as (k' & v' & Hl' & Hne). destruct (live_inj _ _ _ _ _ Hl' Hl). congruence.
  - right. assert (Y : forall s, (s < n)%nat -> exists j, (j < n)%nat /\ slot k j = s).
    { intros s Hs. exists (Z.to_nat ((Z.of_nat s - Z.rem k (Z.of_nat n)) mod Z.of_nat n)).
      pose proof (Z.mod_pos_bound (Z.of_nat s - Z.rem k (Z.of_nat n)) (Z.of_nat n) ltac:(lia)).
      split; [lia|]. unfold slot_of. rewrite Z2Nat.id by lia. rewrite Zplus_mod_idemp_r.
      replace (Z.rem k (Z.of_nat n) + (Z.of_nat s - Z.rem k (Z.of_nat n))) with (Z.of_nat s) by lia.
      rewrite Z.mod_small by lia. lia. }
    assert (All : forall s, (s < n)%nat -> exists k' v', live (nth s t None) k' v' /\ k' <> k).
    { intros s Hs. destruct (Y s Hs) as (j & Hj & <-). apply Hall. apply in_seq. lia. }
    split; [|split; [intros s Hs; destruct (All s Hs) as (k' & v' & Hl & _); eauto|exact Hc]].
    destruct (M k) as [v|] eqn:HM; [|reflexivity]. exfalso. destruct (R2 k v HM) as (s & Hs & Hl).
    destruct (All s Hs) as (k' & v' & Hl' & Hne). destruct (live_inj _ _ _ _ _ Hl Hl'). congruence.
Qed.

(** ** histories *)
Definition keyed (past : list (sop N)) (M : Z -> option (F N)) : Prop :=
  forall r c, 0 <= r -> 0 <= c < cols -> last_written N past r c = match M (key_of cols r c) with Some v => v | None => fZ N 0 end.
Lemma key_inj r c r' c' : 0 <= c < cols -> 0 <= c' < cols -> key_of cols r c = key_of cols r' c' -> r = r' /\ c = c'.
Proof. unfold key_of. intros H H' E. assert (r = r') by nia. subst. split; [reflexivity|lia]. Qed.

(** with all slots in use, n different elements have been written *)
Lemma full_count t M (past : list (sop N)) : Rep t M -> (forall s, (s < n)%nat -> exists k' v', live (nth s t None) k' v') ->
  (forall k v, M k = Some v -> In k (map (fun p => key_of cols (fst p) (snd p)) (written N past))) ->
  forall l k, M k = None -> incl (map (fun p => key_of cols (fst p) (snd p)) (written N past)) l -> In k l -> (n < length l)%nat.
Proof.
  intros HR Hfull Hdom l k Hk Hincl Hin.
  pose (key_at := fun s => match nth s t None with Some (q, _) => q | None => -1 end).
  pose proof HR as (L & R1 & R2).
  assert (ND : NoDup (map key_at (seq 0 n))).
  { assert (G : forall is, (forall i, In i is -> (i < n)%nat) -> NoDup is -> NoDup (map key_at is)).
    { induction is as [|i is IH]; intros Hi Hnd; cbn [map]; [constructor|]. inversion Hnd; subst. constructor.
      - rewrite in_map_iff. intros (j & E & Hj). destruct (Hfull i ltac:(apply Hi; left; reflexivity)) as (k1 & v1 & Hl1).
        destruct (Hfull j ltac:(apply Hi; right; exact Hj)) as (k2 & v2 & Hl2).
        assert (key_at i = k1) by (unfold key_at; destruct Hl1 as [-> _]; reflexivity).
        assert (key_at j = k2) by (unfold key_at; destruct Hl2 as [-> _]; reflexivity).
        assert (K : k1 = k2) by congruence. rewrite <- K in Hl2.
        assert (i = j) by (eapply live_unique; [exact HR| | |exact Hl1|exact Hl2]; apply Hi; [left; reflexivity|right; exact Hj]).
        subst. contradiction.
      - apply IH; [intros; apply Hi; right; assumption|assumption]. }
    apply G; [intros i Hi; apply in_seq in Hi; lia|apply seq_NoDup]. }
  assert (ND2 : NoDup (k :: map key_at (seq 0 n))).
  { constructor; [|exact ND]. rewrite in_map_iff. intros (s & E & Hs). apply in_seq in Hs.
    destruct (Hfull s ltac:(lia)) as (k1 & v1 & Hl). destruct (R1 s k1 v1 ltac:(lia) Hl) as (_ & HM & _).
    unfold key_at in E. destruct Hl as [Hl _]. rewrite Hl in E. congruence. }
  assert (I2 : incl (k :: map key_at (seq 0 n)) l).
  { intros x [<-|Hx]; [exact Hin|]. rewrite in_map_iff in Hx. destruct Hx as (s & <- & Hs). apply in_seq in Hs.
    destruct (Hfull s ltac:(lia)) as (k1 & v1 & Hl). destruct (R1 s k1 v1 ltac:(lia) Hl) as (_ & HM & _).
    apply Hincl. unfold key_at. rewrite (proj1 Hl). eapply Hdom; eauto. }
  pose proof (NoDup_incl_length ND2 I2) as LL. cbn [length] in LL. rewrite map_length, seq_length in LL. lia.
Qed.

Lemma run_ok (l : list (Z * Z)) : (length l <= n)%nat -> forall ops past (s : sparse N) M,
  Forall (inside N cols) ops -> Forall (nonzero N) ops -> incl (written N past) l -> incl (written N ops) l ->
  Forall (inside N cols) past ->
  Rep (table s) M -> outOfMemory s = fZ N 0 -> keyed past M ->
  (forall k v, M k = Some v -> In k (map (fun p => key_of cols (fst p) (snd p)) (written N past))) ->
  srun N cols n s ops = reads_of N past ops.
Proof.
  intros Hl. induction ops as [|o ops IH]; intros past s M Hin Hnz Hp1 Hp2 Hpast HR Hoom HK Hdom; [reflexivity|].
  inversion Hin as [|? ? Ho Hin']; subst. inversion Hnz as [|? ? Hn0 Hnz']; subst.
  destruct o as [r c v|r c]; unfold inside in Ho; cbn [element fst snd] in Ho; destruct Ho as [Hr Hc]; set (k := key_of cols r c) in *.
  - (* write *)
    cbn [srun reads_of written nonzero] in *.
    assert (Hk : 0 <= k) by (unfold k, key_of; nia).
    assert (HK' : keyed (SWrite r c v :: past) (fun q => if q =? k then Some v else M q)).
    { intros r' c' Hr' Hc'. cbn [last_written]. destruct ((r =? r') && (c =? c')) eqn:E.
      - apply andb_true_iff in E. destruct E as [E1 E2]. apply Z.eqb_eq in E1, E2. subst r' c'. fold k. rewrite Z.eqb_refl. reflexivity.
      - destruct (Z.eqb_spec (key_of cols r' c') k) as [E1|]; [|apply HK; assumption].
        apply key_inj in E1; [|assumption|assumption]. destruct E1 as [-> ->]. rewrite !Z.eqb_refl in E. discriminate. }
    assert (Hdom' : forall q w, (if q =? k then Some v else M q) = Some w ->
      In q (map (fun p => key_of cols (fst p) (snd p)) (written N (SWrite r c v :: past)))).
    { intros q w Hq. cbn [written map fst snd]. destruct (Z.eqb_spec q k) as [->|]; [left; reflexivity|right; eapply Hdom; exact Hq]. }
    assert (Hp1' : incl (written N (SWrite r c v :: past)) l).
    { intros x [<-|Hx]; [apply Hp2; left; reflexivity|apply Hp1; exact Hx]. }
    assert (Hp2' : incl (written N ops) l) by (intros x Hx; apply Hp2; right; exact Hx).
    assert (Hpast' : Forall (inside N cols) (SWrite r c v :: past)) by (constructor; [split; assumption|exact Hpast]).
    unfold swrite. fold k. unfold access.
    destruct (access_spec (table s) M k HR Hk) as [(d & Hd & Hpath & Hcase)|(HM & Hfull & Ep)].
    + destruct Hcase as [(v0 & HM & Hlive & Ep)|(HM & Hdead & t' & Eu & Ep)]; rewrite Ep.
      * cbn [table outOfMemory]. pose proof HR as (L & R1 & R2).
        destruct (upd_some (table s) (slot k d) (Some (k, v)) ltac:(rewrite L; apply slot_lt)) as [t2 E2]. rewrite E2.
        apply (IH _ (Sp t2 (outOfMemory s)) (fun q => if q =? k then Some v else M q)); try assumption.
        cbn [table]. apply (Rep_put (table s) k d v t2 M); try assumption. left; exists v0; exact Hlive.
      * cbn [table outOfMemory].
        assert (HR' : Rep t' M) by (eapply Rep_dead; [exact HR| | |exact Eu]; [exact Hdead|cbn; exact Hz]).
        assert (L' : length t' = n) by (apply HR').
        destruct (upd_some t' (slot k d) (Some (k, v)) ltac:(rewrite L'; apply slot_lt)) as [t2 E2]. rewrite E2.
        apply (IH _ (Sp t2 (outOfMemory s)) (fun q => if q =? k then Some v else M q)); try assumption.
        cbn [table]. apply (Rep_put t' k d v t2 M); try assumption.
        -- intros i Hi. destruct (Hpath i Hi) as (k' & v' & Hl' & Hne). exists k', v'. split; [|exact Hne].
           rewrite (upd_nth' _ _ _ _ _ Eu). destruct (Nat.eqb_spec (slot k i) (slot k d)) as [E|]; [|exact Hl'].
           exfalso. rewrite E in Hl'. eapply live_not_dead; eauto.
        -- right. split; [|exact HM]. rewrite (upd_nth' _ _ _ _ _ Eu), Nat.eqb_refl. cbn. exact Hz.
    + exfalso.
      assert (X : (n < length (map (fun p => key_of cols (fst p) (snd p)) l))%nat).
      { eapply (full_count (table s) M past HR Hfull Hdom _ k HM).
        - intros x Hx. rewrite in_map_iff in Hx. destruct Hx as (p & <- & Hp). apply in_map_iff. exists p. split; [reflexivity|apply Hp1; exact Hp].
        - apply in_map_iff. exists (r, c). split; [reflexivity|apply Hp2; left; reflexivity]. }
      rewrite map_length in X. lia.
  - (* read *)
    cbn [srun reads_of written] in *.
    assert (Hk : 0 <= k) by (unfold k, key_of; nia).
    assert (Hpast' : Forall (inside N cols) (SRead r c :: past)) by (constructor; [split; assumption|exact Hpast]).
    unfold sread. fold k. unfold access.
    destruct (access_spec (table s) M k HR Hk) as [(d & Hd & Hpath & Hcase)|(HM & Hfull & Ep)].
    + destruct Hcase as [(v0 & HM & Hlive & Ep)|(HM & Hdead & t' & Eu & Ep)]; rewrite Ep; cbn [table outOfMemory].
      * rewrite (proj1 Hlive). f_equal; [rewrite (HK r c Hr Hc); fold k; rewrite HM; reflexivity|].
        apply (IH _ (Sp (table s) (outOfMemory s)) M); assumption.
      * rewrite (upd_nth' _ _ _ _ _ Eu), Nat.eqb_refl. f_equal; [rewrite (HK r c Hr Hc); fold k; rewrite HM; reflexivity|].
        apply (IH _ (Sp t' (outOfMemory s)) M); try assumption. cbn [table]. eapply Rep_dead; [exact HR| | |exact Eu]; [exact Hdead|cbn; exact Hz].
    + rewrite Ep. cbn [table outOfMemory]. rewrite Hoom. f_equal; [rewrite (HK r c Hr Hc); fold k; rewrite HM; reflexivity|].
      rewrite <- Hoom. apply (IH _ (Sp (table s) (outOfMemory s)) M); assumption.
Qed.
End Proof.

(** ** C133 *)
Theorem C133_sparse_matrix_is_a_matrix : forall N cols tableSize ops, (0 < tableSize)%nat ->
  feq N (fZ N 0) (fZ N 0) = true ->
  Forall (inside N cols) ops -> Forall (nonzero N) ops -> fits N tableSize ops ->
  srun N cols tableSize (sparse_init N tableSize) ops = reads_of N [] ops.
Proof.
  intros N cols n ops Hn Hz Hin Hnz (l & Hl & Hincl).
  apply (run_ok N cols n Hn Hz l Hl ops [] (sparse_init N n) (fun _ => None)); try assumption.
  - intros x [].
  - constructor.
  - split; [apply repeat_length|]. split; [|discriminate]. intros s k v Hs [E _]. exfalso.
    assert (X : nth s (repeat (@None (Z * F N)) n) None = None) by (clear; revert s; induction n; intros [|s]; cbn; auto).
    cbn [sparse_init table] in E. congruence.
  - reflexivity.
  - intros r c _ _. reflexivity.
  - discriminate.
Qed.
Print Assumptions C133_sparse_matrix_is_a_matrix.

(** 40 elements of a 1000 x 1000 matrix in a table of 40; two of them share a hash value *)
Definition sp_ops : list (sop NumSF) :=
  map (fun i => SWrite (Z.of_nat i * 20) 7 (@fZ NumSF (Z.of_nat i + 1))) (seq 0 40) ++ [SRead 20 7; SRead 0 0].
Definition nonzerob (o : sop NumSF) : bool := match o with SWrite _ _ v => negb (feq NumSF v (fZ NumSF 0)) | SRead _ _ => true end.
Example C133_hypotheses_met : Forall (inside NumSF 1000) sp_ops /\ Forall (nonzero NumSF) sp_ops /\ fits NumSF 40 sp_ops.
Proof.
  split; [|split].
  - apply Forall_forall. intros o Ho. unfold sp_ops in Ho. rewrite in_app_iff, in_map_iff in Ho.
    destruct Ho as [(i & <- & Hi)|[<-|[<-|[]]]]; unfold inside; cbn [element fst snd]; lia.
  - assert (E : forallb nonzerob sp_ops = true) by (vm_compute; reflexivity).
    apply Forall_forall. intros o Ho. pose proof (proj1 (forallb_forall _ _) E o Ho) as X.
    destruct o as [r c v|]; cbn [nonzerob] in X; unfold nonzero; [apply negb_true_iff in X; exact X|exact I].
  - exists (map (fun i => (Z.of_nat i * 20, 7)) (seq 0 40)). split; [rewrite map_length, seq_length; lia|].
    intros x Hx. exact Hx.
Qed.

(** ** C134 *)
(** setting an element back to zero can lose another one: (0,0) and (0,2) of a matrix with two slots *)
Definition one : F NumSF := fZ NumSF 1.
Theorem C134_zeroing_loses_another_element_refuted :
  srun NumSF 4 2 (sparse_init NumSF 2)
    [SWrite 0 0 one; SWrite 0 2 one; SRead 0 2; SWrite 0 0 (fZ NumSF 0); SRead 0 2] = [one; fZ NumSF 0].
Proof. vm_compute. reflexivity. Qed.
Print Assumptions C134_zeroing_loses_another_element_refuted.
(** an element that does not fit is written to a variable all elements that do not fit share *)
Theorem C134_overflowing_elements_share_a_value_refuted :
  srun NumSF 4 1 (sparse_init NumSF 1) [SWrite 0 0 one; SWrite 0 1 one; SRead 0 3] = [one].
Proof. vm_compute. reflexivity. Qed.
Print Assumptions C134_overflowing_elements_share_a_value_refuted.
