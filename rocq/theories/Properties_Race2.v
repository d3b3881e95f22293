(** C143-C145: the star list and the orientation shared by two tasks without a lock. *)
From Verif Require Import Base Num M_Linalg M_Alignment S_Alignment P_Alignment P_Main M_Race2.
From Coq Require Import Permutation.

Section Race2.
Context (N : Num) (qsort : list (vpair N) -> list (vpair N)).
Notation call := (call N). Notation shared := (shared N).
Notation micro := (micro N qsort). Notation run := (run N qsort).

(** calls that have not begun: synchronise a star with reference [ref], clear the list, store a new orientation *)
Inductive fresh : call -> Prop :=
| F_sync ref : fresh (LoadAz ref)
| F_clear : fresh Clear
| F_turn az alt : fresh (StoreAz az alt).
Definition is_sync (c : call) : bool := match c with LoadAz _ => true | _ => false end.
Definition in_range (s : shared) : Prop := 0 <= s_num s < 64 /\ length (s_verts s) = 67%nat.

(** ** C143 *)
Definition call_ok (c : call) : Prop := match c with Check i _ _ => 0 <= i | StoreNum n => 0 <= n < 64 | _ => True end.
Lemma wr_in {A} (l : list A) i x : (i < length l)%nat -> exists l', wr l i x = Ok l' /\ length l' = length l.
Proof.
  intros H. destruct (wr l i x) as [l'|] eqn:E; [exists l'; split; [reflexivity|eapply wr_length; eauto]|exfalso].
  unfold wr in E. destruct (upd l i x) eqn:U; [discriminate|]. clear E. revert i H U. induction l as [|y l IH]; intros i H U; [cbn in H; lia|].
  destruct i; cbn in *; [discriminate|]. destruct (upd l i x) eqn:U'; [discriminate|]. apply (IH i); [lia|exact U'].
Qed.
Lemma micro_safe s c : permuting N qsort -> in_range s -> call_ok c -> exists s' c', micro s c = Ok (s', c') /\ in_range s' /\ call_ok c'.
Proof.
  intros Hq [Hn Hl] Hc. assert (R0 : in_range s) by (split; assumption).
  destruct c as [ref|az ref|i act ref|act ref|act ref|ref| |n| |b| |az alt|alt]; cbn [M_Race2.micro].
  - do 2 eexists. split; [reflexivity|]. split; [exact R0|exact I].
  - do 2 eexists. split; [reflexivity|]. split; [exact R0|cbn; lia].
  - cbn in Hc. destruct (Z.ltb_spec i (s_num s)).
    + destruct (rdz_some (s_verts s) i ltac:(lia)) as [v ->]. cbn [bind]. destruct (_ && _); do 2 eexists; (split; [reflexivity|]; split; [exact R0|cbn; auto; lia]).
    + do 2 eexists. split; [reflexivity|]. split; [exact R0|exact I].
  - destruct (0 <? s_num s); [|do 2 eexists; split; [reflexivity|]; split; [exact R0|exact I]].
    destruct (rdz_some (s_verts s) 0 ltac:(lia)) as [v E]. unfold rdz in E. cbn [Z.ltb Z.compare Z.to_nat] in E. rewrite E. cbn [bind].
    do 2 eexists. split; [reflexivity|]. split; [exact R0|exact I].
  - destruct (rdz_some (s_verts s) (s_num s) ltac:(lia)) as [v ->]. cbn [bind].
    destruct (wr_in (s_verts s) (Z.to_nat (s_num s)) (VP act (reference v)) ltac:(lia)) as (m & -> & L). cbn [bind].
    do 2 eexists. split; [reflexivity|]. split; [split; cbn; lia|exact I].
  - destruct (rdz_some (s_verts s) (s_num s) ltac:(lia)) as [v ->]. cbn [bind].
    destruct (wr_in (s_verts s) (Z.to_nat (s_num s)) (VP (actual v) ref) ltac:(lia)) as (m & -> & L). cbn [bind].
    do 2 eexists. split; [reflexivity|]. split; [split; cbn; lia|exact I].
  - do 2 eexists. split; [reflexivity|]. split; [exact R0|]. cbn. apply Z.mod_pos_bound. lia.
  - do 2 eexists. split; [reflexivity|]. split; [split; cbn; [exact Hc|exact Hl]|exact I].
  - do 2 eexists. split; [reflexivity|]. split; [|exact I]. split; [exact Hn|]. cbn [s_verts]. rewrite app_length, (Permutation_length (Hq _)), firstn_length, skipn_length. lia.
  - do 2 eexists. split; [reflexivity|]. split; [exact R0|exact I].
  - do 2 eexists. split; [reflexivity|]. split; [split; cbn; [lia|exact Hl]|exact I].
  - do 2 eexists. split; [reflexivity|]. split; [exact R0|exact I].
  - do 2 eexists. split; [reflexivity|]. split; [exact R0|exact I].
Qed.
Lemma set_call_Forall (P : call -> Prop) l : forall i c, Forall P l -> P c -> Forall P (set_call N l i c).
Proof. induction l as [|x l IH]; intros i c H Hc; [exact H|]. inversion H; subst. destruct i; cbn; constructor; auto. Qed.

(** how many stars a call may still count *)
Definition may_count (c : call) : nat := match c with LoadAz _ | LoadAlt _ _ | Check _ _ _ | Wrap _ _ | SetActual _ _ | SetReference _ | LoadNum => 1 | _ => 0 end%nat.
Definition left_to (l : list call) : nat := fold_right (fun c n => (may_count c + n)%nat) 0%nat l.
(** [b]: a bound for the number of stars that all calls keep: stars counted now plus those still to be counted *)
Definition bounded (b : Z) (s : shared) (l : list call) : Prop :=
  s_num s + Z.of_nat (left_to l) <= b /\ Forall (fun c => match c with StoreNum n => n + Z.of_nat (left_to l) <= b | _ => True end) l.
Lemma left_set l : forall i c c0, nth_error l i = Some c0 -> (left_to (set_call N l i c) + may_count c0 = left_to l + may_count c)%nat.
Proof.
  induction l as [|x l IH]; intros i c c0 H; [destruct i; discriminate|]. destruct i; cbn [nth_error set_call left_to fold_right] in *.
  - injection H as ->. lia.
  - fold (left_to l). fold (left_to (set_call N l i c)). specialize (IH i c c0 H). lia.
Qed.
Lemma bounded_step b s l i c s' c' : nth_error l i = Some c -> in_range s -> micro s c = Ok (s', c') -> bounded b s l -> bounded b s' (set_call N l i c').
Proof.
  intros Hi [Hn _] E [B1 B2]. pose proof (left_set l i c' c Hi) as L. pose proof (Forall_nth_error' := proj1 (Forall_forall _ _) B2). specialize (Forall_nth_error' c (nth_error_In _ _ Hi)). cbv beta in Forall_nth_error'.
  assert (G : (may_count c' <= may_count c)%nat /\ s_num s' + Z.of_nat (may_count c') <= Z.max (s_num s + Z.of_nat (may_count c)) (match c with StoreNum n => n | _ => 0 end) /\
              (match c' with StoreNum n => n + Z.of_nat (may_count c') <= s_num s + Z.of_nat (may_count c) | _ => True end)).
  { destruct c as [ref|az ref|k act ref|act ref|act ref|ref| |n| |r| |az alt|alt]; cbn [M_Race2.micro] in E.
    - apply Ok2 in E. destruct E as [<- <-]. cbn. lia.
    - apply Ok2 in E. destruct E as [<- <-]. cbn. lia.
    - destruct (k <? s_num s); [destruct (rdz (s_verts s) k); [|discriminate]; cbn [bind] in E; destruct (_ && _)|]; apply Ok2 in E; destruct E as [<- <-]; cbn; lia.
    - destruct (0 <? s_num s); [destruct (rd (s_verts s) 0); [|discriminate]; cbn [bind] in E|]; apply Ok2 in E; destruct E as [<- <-]; cbn; lia.
    - destruct (rdz (s_verts s) (s_num s)); [|discriminate]. cbn [bind] in E. destruct (wr _ _ _); [|discriminate]. cbn [bind] in E. apply Ok2 in E. destruct E as [<- <-]. cbn. lia.
    - destruct (rdz (s_verts s) (s_num s)); [|discriminate]. cbn [bind] in E. destruct (wr _ _ _); [|discriminate]. cbn [bind] in E. apply Ok2 in E. destruct E as [<- <-]. cbn. lia.
    - apply Ok2 in E. destruct E as [<- <-]. cbn [may_count s_num]. unfold MAX_ALIGNMENT_POINTS. pose proof (Z.mod_le (s_num s + 1) 64 ltac:(lia) ltac:(lia)). cbn [Z.of_nat]. lia.
    - apply Ok2 in E. destruct E as [<- <-]. cbn. lia.
    - apply Ok2 in E. destruct E as [<- <-]. cbn. lia.
    - apply Ok2 in E. destruct E as [<- <-]. cbn. lia.
    - apply Ok2 in E. destruct E as [<- <-]. cbn. lia.
    - apply Ok2 in E. destruct E as [<- <-]. cbn. lia.
    - apply Ok2 in E. destruct E as [<- <-]. cbn. lia. }
  destruct G as (G1 & G2 & G3). split.
  - destruct c; lia.
  - apply set_call_Forall; [|destruct c'; try exact I; destruct c; lia].
    revert B2. apply Forall_impl. intros x Hx. destruct x; try exact I. lia.
Qed.

(** C143: whatever calls are under way and however their statements interleave, no statement accesses memory outside the
    list, the number of stars stays below 64 and is at most the number before plus the stars synchronised since. *)
Theorem C143_every_schedule : forall s calls schedule, permuting N qsort -> in_range s -> Forall fresh calls ->
  exists s' calls', run s calls schedule = Ok (s', calls') /\ in_range s' /\
    s_num s' <= s_num s + Z.of_nat (length (filter is_sync calls)).
Proof.
  intros s calls schedule Hq Hs Hf.
  assert (Hc : Forall call_ok calls) by (eapply Forall_impl; [|exact Hf]; intros c []; cbn; auto).
  assert (Hb : bounded (s_num s + Z.of_nat (length (filter is_sync calls))) s calls).
  { split.
    - assert (left_to calls = length (filter is_sync calls)) as ->; [|lia]. clear Hc. induction Hf as [|c l Hx Hf IH]; [reflexivity|].
      cbn [left_to fold_right filter]. fold (left_to l). rewrite IH. destruct Hx; reflexivity.
    - eapply Forall_impl; [|exact Hf]. intros c []; exact I. }
  clear Hf. revert Hb. generalize (s_num s + Z.of_nat (length (filter is_sync calls))). intros b Hb. revert s calls Hs Hc Hb.
  induction schedule as [|i schedule IH]; intros s calls Hs Hc Hb; cbn [M_Race2.run].
  - exists s, calls. split; [reflexivity|]. split; [exact Hs|]. destruct Hb as [Hb _]. lia.
  - unfold advance2. destruct (nth_error calls i) as [c|] eqn:Ei; [|cbn [bind]; apply IH; assumption].
    destruct (micro_safe s c Hq Hs) as (s' & c' & E & Hs' & Hc'). { rewrite Forall_forall in Hc. apply Hc. eapply nth_error_In; eauto. }
    rewrite E. cbn [bind]. apply IH; [exact Hs'|apply set_call_Forall; assumption|]. exact (bounded_step b s calls i c s' c' Ei Hs E Hb).
Qed.

(** ** A call that is not interrupted does what addVertexPair does *)
Lemma set_same l : forall i c c', set_call N (set_call N l i c) i c' = set_call N l i c'.
Proof. induction l as [|x l IH]; intros i c c'; [destruct i; reflexivity|]. destruct i; cbn; [reflexivity|]. rewrite IH. reflexivity. Qed.
Lemma nth_set l : forall i c c0, nth_error l i = Some c0 -> nth_error (set_call N l i c) i = Some c.
Proof. induction l as [|x l IH]; intros i c c0 H; [destruct i; discriminate|]. destruct i; cbn in *; [reflexivity|eauto]. Qed.
Lemma run_step s l i c s' c' sch : nth_error l i = Some c -> micro s c = Ok (s', c') -> run s l (i :: sch) = run s' (set_call N l i c') sch.
Proof. intros H E. cbn [M_Race2.run]. unfold advance2. rewrite H, E. reflexivity. Qed.
Lemma run_app s l a b : run s l (a ++ b) = do '(s, l) <- run s l a; run s l b.
Proof.
  revert s l. induction a as [|i a IH]; intros s l; [reflexivity|]. cbn [app M_Race2.run]. destruct (advance2 N qsort s l i) as [[s' l']|]; [cbn [bind]; apply IH|reflexivity].
Qed.
Lemma check_run s l i act ref k : in_range s -> nth_error l i = Some (Check k act ref) -> 0 <= k <= s_num s ->
  exists n, (n <= Z.to_nat (s_num s - k) + 1)%nat /\
  forall sch, run s l (repeat i n ++ sch) = run s (set_call N l i
    (if existsb (fun v => feq N (px (actual v)) (px act) && feq N (py (actual v)) (py act)) (skipn (Z.to_nat k) (firstn (Z.to_nat (s_num s)) (s_verts s))) then Done false else Wrap act ref)) sch.
Proof.
  intros Hs Hi Hk. remember (Z.to_nat (s_num s - k)) as m eqn:Em. revert l k Hi Hk Em. induction m as [|m IH]; intros l k Hi Hk Em.
  - exists 1%nat. split; [lia|]. intros sch. cbn [repeat app]. assert (k = s_num s) by lia. subst k.
    rewrite skipn_all2 by (rewrite firstn_length; lia). cbn [existsb]. erewrite run_step; [reflexivity|exact Hi|]. cbn [M_Race2.micro]. rewrite Z.ltb_irrefl. reflexivity.
  - destruct Hs as [Hn Hl]. destruct (rdz_some (s_verts s) k ltac:(lia)) as [v Ev].
    assert (Es : skipn (Z.to_nat k) (firstn (Z.to_nat (s_num s)) (s_verts s)) = v :: skipn (Z.to_nat (k + 1)) (firstn (Z.to_nat (s_num s)) (s_verts s))).
    { unfold rdz in Ev. destruct (Z.ltb_spec k 0); [lia|]. apply rd_ok in Ev. replace (Z.to_nat (k + 1)) with (S (Z.to_nat k)) by lia.
      assert (Ev' : nth_error (firstn (Z.to_nat (s_num s)) (s_verts s)) (Z.to_nat k) = Some v).
      { rewrite <- (firstn_skipn (Z.to_nat (s_num s)) (s_verts s)) in Ev. rewrite nth_error_app1 in Ev by (rewrite firstn_length; lia). exact Ev. }
      revert Ev'. generalize (firstn (Z.to_nat (s_num s)) (s_verts s)). generalize (Z.to_nat k). clear. induction n; intros l H; destruct l; try discriminate; cbn in *; [injection H as ->; reflexivity|apply IHn; exact H]. }
    rewrite Es. cbn [existsb]. destruct (feq N (px (actual v)) (px act) && feq N (py (actual v)) (py act)) eqn:Ed.
    + exists 1%nat. split; [lia|]. intros sch. cbn [repeat app orb]. erewrite run_step; [reflexivity|exact Hi|]. cbn [M_Race2.micro].
      replace (k <? s_num s) with true by (symmetry; apply Z.ltb_lt; lia). rewrite Ev. cbn [bind]. rewrite Ed. reflexivity.
    + destruct (IH (set_call N l i (Check (k + 1) act ref)) (k + 1)) as (n & Hn' & H); [eapply nth_set; eauto|lia|lia|].
      exists (S n). split; [lia|]. intros sch. cbn [repeat app orb]. rewrite (run_step s l i _ s (Check (k + 1) act ref) (repeat i n ++ sch) Hi).
      2:{ cbn [M_Race2.micro]. replace (k <? s_num s) with true by (symmetry; apply Z.ltb_lt; lia). rewrite Ev. cbn [bind]. rewrite Ed. reflexivity. }
      rewrite H, set_same. reflexivity.
Qed.
Lemma done_stays s l i b k : nth_error l i = Some (Done b) -> run s l (repeat i k) = Ok (s, l).
Proof.
  intros H. induction k as [|k IH]; [reflexivity|]. cbn [repeat]. rewrite (run_step s l i _ s (Done b) _ H eq_refl).
  replace (set_call N l i (Done b)) with l; [exact IH|]. clear IH. revert i H. induction l as [|x l IHl]; intros i H; [destruct i; reflexivity|]. destruct i; cbn in *; [injection H as ->; reflexivity|f_equal; auto].
Qed.
Theorem C143_uninterrupted : forall s calls i ref k a, permuting N qsort -> in_range s -> nth_error calls i = Some (LoadAz ref) ->
  s_num s + 10 <= Z.of_nat k -> numVertices a = s_num s -> verts a = s_verts s ->
  exists b a', addVertexPair N qsort a (s_orient s) ref = Ok (b, a') /\
    run s calls (repeat i k) = Ok (Shared (s_orient s) (numVertices a') (verts a'), set_call N calls i (Done b)).
Proof.
  intros s l i ref k a Hq Hs Hi Hk Ea Ev. destruct s as [p n mem]. cbn [s_orient s_num s_verts] in *. pose proof Hs as [Hn Hl]. cbn [s_num s_verts] in Hn, Hl.
  set (s := Shared p n mem) in *. set (l1 := set_call N l i (LoadAlt (px p) ref)). set (l2 := set_call N l i (Check 0 p ref)).
  assert (H2 : nth_error l2 i = Some (Check 0 p ref)) by (eapply nth_set; eauto).
  destruct (check_run s l2 i p ref 0 Hs H2 ltac:(cbn; lia)) as (m & Hm & Hr). cbn [s s_num s_verts Z.to_nat skipn] in Hm, Hr. rewrite Z.sub_0_r in Hm.
  destruct (Z_le_dec (Z.of_nat (2 + m)) (Z.of_nat k)) as [Hle|]; [|lia].
  replace k with (2 + m + (k - 2 - m))%nat by lia. set (rest := (k - 2 - m)%nat). assert (Hrest : (7 <= rest)%nat) by lia.
  rewrite !repeat_app. rewrite <- app_assoc. cbn [repeat app].
  rewrite (run_step s l i (LoadAz ref) s (LoadAlt (px p) ref) _ Hi eq_refl).
  assert (Hp : Pt (px p) (py p) = p) by (destruct p; reflexivity).
  rewrite (run_step s _ i (LoadAlt (px p) ref) s (Check 0 p ref) _). 2:{ eapply nth_set; eauto. } 2:{ cbn [M_Race2.micro s s_orient]. rewrite Hp. reflexivity. }
  rewrite set_same. fold l2. rewrite Hr. subst l2. rewrite set_same. unfold addVertexPair, is_duplicate. rewrite Ea, Ev.
  set (dup := existsb _ _). destruct dup.
  - exists false, a. split; [reflexivity|]. rewrite Ea, Ev. rewrite (done_stays _ _ i false); [reflexivity|eapply nth_set; eauto].
  - destruct rest as [|[|[|[|[|[|[|rest]]]]]]]; try lia. clear Hrest.
    assert (Ex : exists r', (if 0 <? n then do v0 <- rd mem 0; Ok (unwrap N v0 ref) else Ok ref) = Ok r' /\ micro s (Wrap p ref) = Ok (s, SetActual p r')).
    { cbn [M_Race2.micro s s_num s_verts]. destruct (0 <? n); [|eauto]. destruct (rd mem 0) as [v0|] eqn:E0; [cbn [bind]; eauto|]. rewrite rd_inb with (d := zero_pair N) in E0 by lia. discriminate. }
    destruct Ex as (r' & -> & Ew). cbn [bind].
    destruct (rdz_some mem n ltac:(lia)) as [v Erd]. destruct (wr_in mem (Z.to_nat n) (VP p (reference v)) ltac:(lia)) as (m1 & E1 & L1).
    destruct (wr_in mem (Z.to_nat n) (VP p r') ltac:(lia)) as (m2 & E2 & L2). rewrite E2. cbn [bind].
    assert (Erd1 : rdz m1 n = Ok (VP p (reference v))).
    { unfold rdz. destruct (Z.ltb_spec n 0); [lia|]. apply rd_ok. unfold wr in E1. destruct (upd mem (Z.to_nat n) (VP p (reference v))) eqn:U; [|discriminate]. apply Ok1 in E1. subst l0.
      clear - U. revert mem m1 U. generalize (Z.to_nat n). induction n0; intros mem m1 U; destruct mem; try discriminate; cbn in U; [injection U as <-; reflexivity|]. destruct (upd mem n0 _) eqn:U'; [|discriminate]. injection U as <-. cbn. eauto. }
    assert (E12 : wr m1 (Z.to_nat n) (VP p r') = Ok m2).
    { unfold wr in *. destruct (upd mem (Z.to_nat n) (VP p (reference v))) eqn:U; [|discriminate]. apply Ok1 in E1. subst m1. destruct (upd mem (Z.to_nat n) (VP p r')) as [u2|] eqn:U2; [|discriminate]. apply Ok1 in E2. subst u2.
      assert (X : upd l0 (Z.to_nat n) (VP p r') = Some m2); [|rewrite X; reflexivity]. clear - U U2. revert mem l0 m2 U U2. generalize (Z.to_nat n). induction n0; intros mem m1 m2 U U2; destruct mem; try discriminate; cbn in U, U2; [injection U as <-; injection U2 as <-; reflexivity|].
      destruct (upd mem n0 (VP p (reference v))) eqn:A; [|discriminate]. destruct (upd mem n0 (VP p r')) eqn:B; [|discriminate]. injection U as <-. injection U2 as <-. cbn. rewrite (IHn0 _ _ _ A B). reflexivity. }
    do 2 eexists. split; [reflexivity|]. cbn [repeat].
    assert (Hw : nth_error (set_call N l i (Wrap p ref)) i = Some (Wrap p ref)) by (eapply nth_set; eauto).
    rewrite (run_step s _ i _ s (SetActual p r') _ Hw Ew), set_same.
    rewrite (run_step s _ i (SetActual p r') (Shared p n m1) (SetReference r')); [|eapply nth_set; eauto|cbn [M_Race2.micro s s_orient s_num s_verts]; rewrite Erd; cbn [bind]; rewrite E1; reflexivity]. rewrite set_same.
    rewrite (run_step _ _ i (SetReference r') (Shared p n m2) LoadNum); [|eapply nth_set; eauto|cbn [M_Race2.micro s_orient s_num s_verts]; rewrite Erd1; cbn [bind actual]; rewrite E12; reflexivity]. rewrite set_same.
    rewrite (run_step _ _ i LoadNum (Shared p n m2) (StoreNum ((n + 1) mod MAX_ALIGNMENT_POINTS))); [|eapply nth_set; eauto|reflexivity]. rewrite set_same.
    rewrite (run_step _ _ i (StoreNum ((n + 1) mod MAX_ALIGNMENT_POINTS)) (Shared p ((n + 1) mod MAX_ALIGNMENT_POINTS) m2) Sort); [|eapply nth_set; eauto|reflexivity]. rewrite set_same.
    rewrite (run_step _ _ i Sort (Shared p ((n + 1) mod MAX_ALIGNMENT_POINTS) (qsort (firstn (Z.to_nat ((n + 1) mod MAX_ALIGNMENT_POINTS)) m2) ++ skipn (Z.to_nat ((n + 1) mod MAX_ALIGNMENT_POINTS)) m2)) (Done true)); [|eapply nth_set; eauto|reflexivity]. rewrite set_same.
    change (i :: repeat i rest) with (repeat i (S rest)). rewrite (done_stays _ _ i true); [reflexivity|eapply nth_set; eauto].
Qed.
End Race2.
Print Assumptions C143_every_schedule. Print Assumptions C143_uninterrupted.

Section Examples.
Context (N : Num) (qsort : list (vpair N) -> list (vpair N)).
Notation run := (run N qsort).
Definition empty_list (p : point N) : shared N := Shared p 0 (verts (align_init N)).
Example C143_nonvacuous : forall p r, in_range N (empty_list p) /\ Forall (fresh N) [LoadAz r; Clear; StoreAz (px p) (py p); LoadAz r].
Proof. intros p r. split; [split; cbn; lia|repeat constructor]. Qed.

(** C144: a star is synchronised over Bluetooth (call 0) while loop() stores the new orientation (call 1) and then
    synchronises a star received over TCP (call 2). *)
Definition two_syncs (p2 r1 r2 : point N) : list (call N) := [LoadAz r1; StoreAz (px p2) (py p2); LoadAz r2].
Lemma sorted1 x : permuting N qsort -> qsort [x] = [x].
Proof. intros H. apply Permutation_length_1_inv. symmetry. apply H. Qed.
(** without overlap: the list is as if the two stars had been added one after the other *)
Theorem C144_without_overlap_partial : forall s p2 r1 r2 k a, permuting N qsort -> in_range N s -> (100 <= k)%nat ->
  numVertices a = s_num s -> verts a = s_verts s ->
  exists b1 b2 a1 a2, addVertexPair N qsort a (s_orient s) r1 = Ok (b1, a1) /\ addVertexPair N qsort a1 p2 r2 = Ok (b2, a2) /\
    run s (two_syncs p2 r1 r2) (repeat 0%nat k ++ [1; 1]%nat ++ repeat 2%nat k) = Ok (Shared p2 (numVertices a2) (verts a2), [Done b1; Done true; Done b2]).
Proof.
  intros s p2 r1 r2 k a Hq Hs Hk Ea Ev. pose proof Hs as [Hn _].
  destruct (C143_uninterrupted N qsort s (two_syncs p2 r1 r2) 0 r1 k a Hq Hs eq_refl ltac:(lia) Ea Ev) as (b1 & a1 & E1 & R1).
  exists b1. rewrite run_app, R1. cbn [bind set_call two_syncs].
  assert (S1 : in_range N (Shared p2 (numVertices a1) (verts a1))).
  { destruct (C143_every_schedule N qsort s [LoadAz r1] (repeat 0%nat k) Hq Hs ltac:(repeat constructor)) as (s' & l' & E & [A B] & _).
    destruct (C143_uninterrupted N qsort s [LoadAz r1] 0 r1 k a Hq Hs eq_refl ltac:(lia) Ea Ev) as (b1' & a1' & E1' & R1'). rewrite E1 in E1'. apply Ok2 in E1'. destruct E1' as [<- <-].
    rewrite R1' in E. apply Ok2 in E. destruct E as [<- _]. split; assumption. }
  rewrite run_app. cbn [M_Race2.run advance2 nth_error M_Race2.micro bind set_call s_orient s_num s_verts px py].
  replace (Pt (px p2) (py p2)) with p2 by (destruct p2; reflexivity).
  destruct (C143_uninterrupted N qsort (Shared p2 (numVertices a1) (verts a1)) [Done b1; Done true; LoadAz r2] 2 r2 k a1 Hq S1 eq_refl ltac:(destruct S1; lia) eq_refl eq_refl) as (b2 & a2 & E2 & R2).
  exists b2, a1, a2. split; [exact E1|]. split; [exact E2|]. exact R2.
Qed.
(** overlapping: the first star gets the reference of the second one, and a place that was never pointed at is stored too *)
Theorem C144_references_swapped_refuted : forall p1 p2 r1 r2, permuting N qsort ->
  exists s', run (empty_list p1) (two_syncs p2 r1 r2) [0;0;0;0; 1;1; 2;2;2;2; 2; 0; 2;2;2;2; 0;0;0;0]%nat = Ok (s', [Done true; Done true; Done true]) /\
    s_num s' = 2 /\ Permutation (firstn 2 (s_verts s')) [VP p1 r2; VP (Pt (fZ N 0) (fZ N 0)) r1].
Proof.
  intros [x1 y1] p2 r1 r2 Hq. eexists. split.
  - unfold two_syncs, empty_list, align_init. cbn [verts]. cbv [M_Race2.run advance2 nth_error M_Race2.micro bind set_call s_orient s_num s_verts px py Z.ltb Z.compare Z.add Z.to_nat rdz rd wr upd repeat zero_pair actual reference Z.modulo Z.div_eucl MAX_ALIGNMENT_POINTS firstn skipn app Pos.to_nat Pos.iter_op Nat.add Pos.add Z.pos_div_eucl Z.sub Z.opp Z.mul Z.leb Pos.compare Pos.compare_cont Z.pos_sub].
    rewrite !sorted1 by exact Hq.
    cbv [M_Race2.run advance2 nth_error M_Race2.micro bind set_call s_orient s_num s_verts px py Z.ltb Z.compare Z.add Z.to_nat rdz rd wr upd repeat zero_pair actual reference Z.modulo Z.div_eucl MAX_ALIGNMENT_POINTS firstn skipn app Pos.to_nat Pos.iter_op Nat.add Pos.add Z.pos_div_eucl Z.sub Z.opp Z.mul Z.leb Pos.compare Pos.compare_cont Z.pos_sub].
    reflexivity.
  - split; [reflexivity|]. cbn [s_verts]. set (l := qsort _). assert (L : length l = 2%nat) by (unfold l; rewrite (Permutation_length (Hq _)); reflexivity).
    destruct l as [|u [|w [|? ?]]] eqn:El; try discriminate. cbn [firstn app]. rewrite <- El. subst l. apply Hq.
Qed.
(** overlapping differently: both calls report success, one star is lost *)
Theorem C144_star_lost_refuted : forall p1 p2 r1 r2, permuting N qsort ->
  exists s', run (empty_list p1) (two_syncs p2 r1 r2) [0;0;0;0; 1;1; 2;2;2;2; 0;0; 2;2; 0;2; 0;0; 2;2]%nat = Ok (s', [Done true; Done true; Done true]) /\
    s_num s' = 1 /\ firstn 1 (s_verts s') = [VP p2 r2].
Proof.
  intros p1 [x2 y2] r1 r2 Hq. eexists. split.
  - unfold two_syncs, empty_list, align_init. cbn [verts]. 
    cbv [M_Race2.run advance2 nth_error M_Race2.micro bind set_call s_orient s_num s_verts px py Z.ltb Z.compare Z.add Z.to_nat rdz rd wr upd repeat zero_pair actual reference Z.modulo Z.div_eucl MAX_ALIGNMENT_POINTS firstn skipn app Pos.to_nat Pos.iter_op Nat.add Pos.add Z.pos_div_eucl Z.sub Z.opp Z.mul Z.leb Pos.compare Pos.compare_cont Z.pos_sub].
    rewrite !sorted1 by exact Hq.
    cbv [M_Race2.run advance2 nth_error M_Race2.micro bind set_call s_orient s_num s_verts px py Z.ltb Z.compare Z.add Z.to_nat rdz rd wr upd repeat zero_pair actual reference Z.modulo Z.div_eucl MAX_ALIGNMENT_POINTS firstn skipn app Pos.to_nat Pos.iter_op Nat.add Pos.add Z.pos_div_eucl Z.sub Z.opp Z.mul Z.leb Pos.compare Pos.compare_cont Z.pos_sub].
    reflexivity.
  - split; reflexivity.
Qed.
(** C145: a Bluetooth synchronisation between the two assignments of setOrientation stores an orientation made of the
    new azimuth and the old altitude *)
Theorem C145_torn_orientation_refuted : forall p1 p2 r, permuting N qsort ->
  exists s', run (empty_list p1) [LoadAz r; StoreAz (px p2) (py p2)] [1; 0;0;0;0;0;0;0;0;0; 1]%nat = Ok (s', [Done true; Done true]) /\
    s_orient s' = p2 /\ s_num s' = 1 /\ firstn 1 (s_verts s') = [VP (Pt (px p2) (py p1)) r].
Proof.
  intros p1 [x2 y2] r Hq. eexists. split.
  - unfold empty_list, align_init. cbn [verts]. 
    cbv [M_Race2.run advance2 nth_error M_Race2.micro bind set_call s_orient s_num s_verts px py Z.ltb Z.compare Z.add Z.to_nat rdz rd wr upd repeat zero_pair actual reference Z.modulo Z.div_eucl MAX_ALIGNMENT_POINTS firstn skipn app Pos.to_nat Pos.iter_op Nat.add Pos.add Z.pos_div_eucl Z.sub Z.opp Z.mul Z.leb Pos.compare Pos.compare_cont Z.pos_sub].
    rewrite !sorted1 by exact Hq. cbv [app]. reflexivity.
  - split; [reflexivity|]. split; reflexivity.
Qed.
End Examples.
Print Assumptions C144_without_overlap_partial. Print Assumptions C144_references_swapped_refuted. Print Assumptions C144_star_lost_refuted. Print Assumptions C145_torn_orientation_refuted.
