(** C105-C108: the alignment of the running device, and its memory safety. *)
From Verif Require Import Base Num M_Libc P_Libc M_Checkbits M_Linalg M_Helper M_Alignment S_Alignment P_Alignment P_AlignState P_AlignState2 P_AlignSmall P_AlignWitness M_Telescope M_Stellarium S_Stellarium M_Gnss P_Gnss2 M_NexStar S_NexStar P_NexStar M_Led M_Imu P_Imu M_Main P_Sched P_Main P_Main2 P_Device S_Device P_Device2 P_Publish S_Safe P_Safe Properties_Alignment Properties_NexStar Properties_Device2.
From Coq Require Import Strings.String Permutation Sorted.
Open Scope Z_scope.
Notation length := List.length.

(** The orientations the user has synchronised since the last reset, without repetitions. *)
Fixpoint synchronised {N} (cs : list (command N)) (l : list (point N)) : list (point N) :=
  match cs with
  | [] => l
  | Sync p _ _ _ :: cs => synchronised cs (if existsb (fun q => same N q p) l then l else l ++ [p])
  | Reset :: cs => synchronised cs []
  end.
Definition at_most {N} (n : nat) (cs : list (command N)) : Prop := forall k, (length (synchronised (firstn k cs) []) <= n)%nat.

Lemma exists_last_or_nil {A} (l : list A) : l = [] \/ exists l' a, l = l' ++ [a].
Proof. destruct l as [|y l]; [left; reflexivity|right]. destruct (@exists_last A (y :: l)) as (l' & a & E); [discriminate|]. eauto. Qed.
Lemma app_assoc_2 {A} (l : list A) a b : l ++ [a; b] = (l ++ [a]) ++ [b].
Proof. rewrite <- app_assoc. reflexivity. Qed.

Section Device.
Context (N : Num) (T : Trig N) (pf : platform) (oor : conv_policy) (lc : libc N).
Context (qsort : list (vpair N) -> list (vpair N)) (x : F N) (j : F N * F N).
Context (ftext : nat -> F N -> list Z) (left_first : bool) (cfg : config).
Notation event := (event N).
Notation step := (M_Main.step N T pf oor lc qsort (Ok x) (Some j) ftext left_first cfg).
Notation history := (history N T pf oor lc qsort (Ok x) (Some j) ftext left_first cfg).
Notation boot := (boot N).
Notation commands := (commands N T pf oor lc qsort (Ok x) (Some j) ftext left_first cfg).
Notation careful := (careful N T pf oor lc qsort x j ftext left_first cfg).
Notation safe_event := (safe_event N T qsort j ftext left_first cfg).
Notation all_orders := (all_orders N T).
Notation run := (run N qsort (Ok x) (Some j)).

(** ** C105 *)
Theorem C105_alignment_follows_commands : forall evs d o, history boot evs = Ok (d, o) ->
  exists cs, commands boot evs cs /\ run (align_init N) (all_orders cs) = Ok (t_align (d_tel d)).
Proof. intros evs d o E. exact (history_run N T pf oor lc qsort (Ok x) (Some j) ftext left_first cfg evs boot d o E ltac:(split; reflexivity)). Qed.

(** ** C106 *)
Lemma synchronised_spec cs : forall l, spec_points N (all_orders cs) l = synchronised cs l.
Proof. induction cs as [|[p r dc g|] cs IH]; intros l; [reflexivity|exact (IH _)|exact (IH _)]. Qed.
Lemma at_most_orders n cs : at_most n cs -> never_more_than N n (all_orders cs).
Proof.
  intros H k. assert (K : exists i, spec_points N (firstn k (all_orders cs)) [] = synchronised (firstn i cs) []); [|destruct K as [i ->]; apply H].
  clear H. generalize (@nil (point N)) as l. revert k. induction cs as [|c cs IH]; intros k l.
  - exists O. destruct k; reflexivity.
  - destruct c as [p r dc g|].
    + destruct k as [|[|k]]; [exists O; reflexivity|exists 1%nat; reflexivity|].
      destruct (IH k (if existsb (fun q => same N q p) l then l else l ++ [p])) as [i Hi]. exists (S i). exact Hi.
    + destruct k as [|k]; [exists O; reflexivity|]. destruct (IH k []) as [i Hi]. exists (S i). exact Hi.
Qed.
Theorem C106_points_are_the_synchronised_ones : permuting N qsort -> forall evs d o, history boot evs = Ok (d, o) ->
  exists cs, commands boot evs cs /\
    (at_most 63 cs -> Permutation (map actual (stored (t_align (d_tel d)))) (synchronised cs []) /\
                      numVertices (t_align (d_tel d)) = Z.of_nat (length (synchronised cs []))).
Proof.
  intros Hq evs d o E. destruct (C105_alignment_follows_commands evs d o E) as (cs & Hc & Hr). exists cs. split; [exact Hc|].
  intros Hm. rewrite <- synchronised_spec. eapply C34_points_kept; [exact Hq|apply at_most_orders, Hm|exact Hr].
Qed.
Theorem C106_points_sorted_and_bounded : permuting N qsort -> forall evs d o, history boot evs = Ok (d, o) ->
  0 <= numVertices (t_align (d_tel d)) <= 63 /\ Z.of_nat (length (stored (t_align (d_tel d)))) = numVertices (t_align (d_tel d)) /\
  (sorting N qsort -> weak_order N -> StronglySorted (by_azimuth N) (stored (t_align (d_tel d)))).
Proof.
  intros Hq evs d o E. destruct (C105_alignment_follows_commands evs d o E) as (cs & Hc & Hr).
  assert (HW : WF N (t_align (d_tel d))) by (eapply run_WF; [exact Hq|apply WF_init|exact Hr]).
  pose proof HW as (H1 & _). split; [lia|]. split; [rewrite (stored_length N _ HW); lia|].
  intros Hs Hw. eapply C34_points_sorted; [exact Hs|exact Hw|exact Hr].
Qed.
Lemma command_calib c a a' : permuting N qsort -> calib_ok N x a -> run a (orders N T c) = Ok a' -> calib_ok N x a'.
Proof.
  intros Hq [HW HC] E. destruct c as [p r dc g|]; cbn [orders S_Alignment.run S_Alignment.step] in E.
  - destruct (addVertexPair N qsort a p _) as [[b a1]|] eqn:E1; [|discriminate]. cbn [bind] in E.
    assert (HW1 : WF N a1).
    { eapply (run_WF N qsort x j Hq [Add p (direction N T r dc g)]); [exact HW|]. cbn [S_Alignment.run S_Alignment.step]. rewrite E1. reflexivity. }
    destruct (triangulate_actual N x j a1 HW1) as [(a2 & E2 & HW2 & _ & _ & _ & _ & Hm)|(_ & _ & E2)]; rewrite E2 in E; [|discriminate].
    cbn [bind] in E. apply Ok1 in E. subst a2. split; [exact HW2|left; exact Hm].
  - cbn [bind] in E. apply Ok1 in E. subst a'. apply calib_clear. split; assumption.
Qed.
Lemma commands_calib cs : permuting N qsort -> forall a a', calib_ok N x a -> run a (all_orders cs) = Ok a' -> calib_ok N x a'.
Proof.
  intros Hq. induction cs as [|c cs IH]; intros a a' C E.
  - cbn in E. apply Ok1 in E. subst a'. exact C.
  - change (all_orders (c :: cs)) with (orders N T c ++ all_orders cs) in E. rewrite (run_app N) in E.
    destruct (run a (orders N T c)) as [a1|] eqn:E1; [|discriminate]. cbn [bind] in E. eapply IH; [|exact E]. eapply command_calib; eassumption.
Qed.
Theorem C106_correction_always_defined : permuting N qsort -> forall evs d o, history boot evs = Ok (d, o) ->
  forall p, exists ty m q, getTransformationType N (t_align (d_tel d)) p = Ok ty /\ getTransformationMatrix N (t_align (d_tel d)) p = Ok m /\
    getCalibratedOrientation N (t_align (d_tel d)) p = Ok q.
Proof.
  intros Hq evs d o E p. destruct (C105_alignment_follows_commands evs d o E) as (cs & _ & Hr).
  assert (C : calib_ok N x (t_align (d_tel d))) by (eapply commands_calib; [exact Hq|apply calib_init|exact Hr]).
  destruct (calib_total N x _ p C) as (ty & m & E1 & E2). unfold getCalibratedOrientation. rewrite E2. cbn [bind]. eexists _, _, _. repeat split; eassumption.
Qed.
Lemma triangles_of_run cs al : permuting N qsort -> run (align_init N) (all_orders cs) = Ok al -> at_most 63 cs -> Forall (three_of (numVertices al)) (tris al).
Proof.
  intros Hq Hr Hm.
  apply at_most_orders in Hm. destruct (exists_last_or_nil cs) as [->|(cs' & c & ->)].
  - cbn in Hr. apply Ok1 in Hr. rewrite <- Hr. constructor.
  - unfold S_Device.all_orders in *. rewrite flat_map_app in *. cbn [flat_map] in *. rewrite app_nil_r in *. destruct c as [p r dc g|]; cbn [orders] in *.
    + rewrite app_assoc_2 in Hr. eapply C36_triangles_well_formed; [exact Hq| |exact Hr].
      intros k. destruct (Nat.le_gt_cases (length (flat_map (orders N T) cs' ++ [Add p (direction N T r dc g)])) k) as [K|K].
      * rewrite firstn_all2 by exact K. specialize (Hm (length (flat_map (orders N T) cs' ++ [Add p (direction N T r dc g)]))).
        rewrite app_assoc_2, firstn_app, firstn_all, Nat.sub_diag in Hm. cbn [firstn] in Hm. rewrite app_nil_r in Hm. exact Hm.
      * specialize (Hm k). rewrite app_assoc_2, firstn_app in Hm. replace (k - _)%nat with O in Hm by lia. cbn [firstn] in Hm. rewrite app_nil_r in Hm. exact Hm.
    + rewrite (run_app N) in Hr. destruct (run (align_init N) (flat_map _ cs')) as [a|]; [|discriminate]. cbn in Hr. apply Ok1 in Hr. rewrite <- Hr. constructor.
Qed.
Theorem C106_triangles_well_formed : permuting N qsort -> forall evs d o, history boot evs = Ok (d, o) ->
  exists cs, commands boot evs cs /\ (at_most 63 cs -> Forall (three_of (numVertices (t_align (d_tel d)))) (tris (t_align (d_tel d)))).
Proof.
  intros Hq evs d o E. destruct (C105_alignment_follows_commands evs d o E) as (cs & Hc & Hr). exists cs. split; [exact Hc|]. intros Hm.
  eapply triangles_of_run; eassumption.
Qed.

(** ** C107 *)
Theorem C107_careful_histories_are_memory_safe : permuting N qsort -> strtof_bounded lc -> policy_ok oor -> w64 pf = false ->
  forall evs, careful boot evs -> no_oob (history boot evs).
Proof. intros Hq Hl Ho Hw evs HC. eapply hoare_no_oob, history_safe; try eassumption. apply inv_boot. Qed.

(** ** Non-vacuity: a sync over Bluetooth, an echo request and a GNSS sentence *)
Definition eight_zeros : list Z := repeat 48 8.
Definition a_sync : list Z := sync_request eight_zeros 44 eight_zeros [].
Definition session : list event := Bluetooth a_sync :: Bluetooth [75; 65] :: four N 1000000 gsv.
Lemma a_sync_is : is_sync a_sync. Proof. exists (eight_zeros ++ 44 :: eight_zeros ++ []). split; [reflexivity|cbn; lia]. Qed.
Lemma zeros_spell : word 0 /\ spells 0 eight_zeros.
Proof. split; [red; lia|]. unfold spells, eight_zeros. cbn [repeat]. repeat constructor; left; split; (reflexivity || (cbn; lia)). Qed.
Lemma gsv_ok : serial_ok (firstn 255 gsv).
Proof.
  intros e st en He H1 H2.
  assert (e = 0%nat) as ->.
  { destruct He as [->|He]; [reflexivity|]. do 17 (destruct e as [|e]; [try (cbn in He; discriminate He); try (cbn in H1; discriminate H1)|]).
    cbn in He. destruct e; discriminate He. }
  assert (st = 0%nat) by (vm_compute in H1; congruence). assert (en = 16%nat) by (vm_compute in H2; congruence). subst st en.
  split; [|split]; intros pos H; vm_compute in H; try discriminate H. assert (pos = 0%nat) by congruence. subst pos. vm_compute. lia.
Qed.
Lemma short_points (l : list (point N)) f : (length l <= 3)%nat -> (forall v, length (ftext 2 v) <= 30)%nat -> f = ftext -> (length (points_text N f l) <= 253)%nat.
Proof.
  intros Hl Hf ->. assert (K : (length (points_text N ftext l) <= 64 * length l)%nat); [|lia]. clear Hl. unfold points_text.
  induction l as [|p l IH]; cbn [map List.concat length]; [lia|]. rewrite app_length. unfold point_text at 1. rewrite !app_length. cbn [length].
  pose proof (Hf (px p)). pose proof (Hf (py p)). lia.
Qed.
Lemma quiet_step d t serial d' o : step d (pass_at N t serial) = Ok (d', o) -> sized N d ->
  sized N d' /\ t_align (d_tel d') = t_align (d_tel d) /\ d_timers d' = snd (select (d_timers d) (u32 t)).
Proof.
  intros E S. pose proof (step_run N T pf oor lc qsort (Ok x) (Some j) ftext left_first cfg _ _ _ _ E S) as (cs & Hc & Hr).
  cbn [M_Main.step pass_at] in E. apply loop_summary in E; [|exact S]. destruct E as (S' & Tm & _). split; [exact S'|]. split; [|exact Tm].
  assert (cs = []) as ->.
  { cbn [commands_of pass_at] in Hc. destruct (the_task N d _); try exact Hc. destruct Hc as (s & -> & Hs).
    replace (0 <? received N _) with false in Hs by reflexivity. rewrite andb_false_r in Hs. subst s.
    replace (resets N cfg _) with false by (unfold resets; cbn [env_at e_msgs existsb]; rewrite andb_false_r; reflexivity). reflexivity. }
  cbn in Hr. apply Ok1 in Hr. symmetry. exact Hr.
Qed.
Lemma quiet_safe d t serial : (length (stored (t_align (d_tel d))) <= 3)%nat -> (forall v, length (ftext 2 v) <= 30)%nat ->
  serial_ok (firstn 255 serial) -> safe_event d (pass_at N t serial).
Proof.
  intros Hl Hf Hs. cbn [S_Safe.safe_event pass_at]. destruct (the_task N d _); try exact I.
  - intros _ Hr. exfalso. unfold received in Hr. cbn [env_at e_tcp firstn length] in Hr. lia.
  - split; [exact Hs|]. intros _. split; (apply short_points; [rewrite map_length; exact Hl|exact Hf|reflexivity]).
Qed.
Lemma command_few c a a' : permuting N qsort -> WF N a -> run a (orders N T c) = Ok a' -> (length (stored a') <= S (length (stored a)))%nat.
Proof.
  intros Hq HW E. destruct c as [p r dc g|]; cbn [orders S_Alignment.run S_Alignment.step] in E.
  - destruct (addVertexPair N qsort a p _) as [[b a1]|] eqn:E1; [|discriminate]. cbn [bind] in E.
    assert (K : WF N a1 /\ (length (stored a1) <= S (length (stored a)))%nat).
    { destruct (is_dup N a p) eqn:Ed.
      - rewrite addVertexPair_dup in E1 by exact Ed. apply Ok2 in E1. destruct E1 as [_ <-]. split; [exact HW|lia].
      - destruct (addVertexPair_new N qsort a p (direction N T r dc g) Hq HW Ed) as (a2 & r' & E2 & HW2 & _ & _ & _ & _ & _ & K1 & K2).
        rewrite E1 in E2. apply Ok2 in E2. destruct E2 as [_ <-]. split; [exact HW2|]. pose proof HW as ((Hn1 & Hn2) & _).
        destruct (Z.eq_dec (numVertices a) 63) as [E63|E63]; [destruct (K2 E63) as [_ ->]; cbn; lia|].
        destruct K1 as [_ ->]; [lia|]. rewrite (Permutation_length (Hq _)), app_length. cbn. lia. }
    destruct K as [HW1 K]. destruct (triangulate_actual N x j a1 HW1) as [(a2 & E2 & _ & _ & Es & _)|(_ & _ & E2)]; rewrite E2 in E; [|discriminate].
    cbn [bind] in E. apply Ok1 in E. subst a2. rewrite Es. exact K.
  - cbn [bind] in E. apply Ok1 in E. subst a'. cbn. lia.
Qed.
Lemma nil_ok : serial_ok (firstn 255 []).
Proof. intros e st en _ H. destruct e; discriminate H. Qed.
Example C105_C106_C107_nonvacuous : permuting N qsort -> (forall v, length (ftext 2 v) <= 30)%nat ->
  careful boot session /\
  (exists d o, history boot [Bluetooth a_sync; Bluetooth [75; 65]] = Ok (d, o) /\ numVertices (t_align (d_tel d)) = 1) /\
  forall evs d o cs, history boot (Bluetooth a_sync :: evs) = Ok (d, o) -> commands boot (Bluetooth a_sync :: evs) cs ->
    exists r dc cs', cs = Sync (Pt (fZ N 0) (fZ N 0)) r dc (d_gnss boot) :: cs' /\ r = fdiv N (fmul N (fZ N 0) (fZ N 360)) (fZ N 4294967296).
Proof.
  intros Hq Hf. assert (S0 : sized N boot) by (split; reflexivity).
  split; [|split].
  - unfold session. constructor.
    { split; [left; cbn; lia|]. intros _. left. cbn. lia. }
    intros d1 o1 E1. pose proof (step_summary N T pf oor lc qsort (Ok x) (Some j) ftext left_first cfg _ _ _ _ E1 S0) as [S1 _].
    assert (F1 : (length (stored (t_align (d_tel d1))) <= 1)%nat).
    { destruct (step_run N T pf oor lc qsort (Ok x) (Some j) ftext left_first cfg _ _ _ _ E1 S0) as (cs & Hc & Hr).
      destruct Hc as [(_ & r & dc & _ & ->)|(_ & ->)].
      - unfold S_Device.all_orders in Hr. cbn [flat_map] in Hr. rewrite app_nil_r in Hr. apply (command_few _ _ _ Hq (WF_init N)) in Hr. cbn [stored numVertices align_init Z.to_nat firstn length] in Hr. exact Hr.
      - cbn in Hr. apply Ok1 in Hr. rewrite <- Hr. cbn. lia. }
    clear E1 o1. constructor.
    { split; [right; left; exists 65, []; reflexivity|]. intros (r & Hr & _). discriminate. }
    intros d2 o2 E2. pose proof (step_summary N T pf oor lc qsort (Ok x) (Some j) ftext left_first cfg _ _ _ _ E2 S1) as [S2 _].
    assert (F2 : (length (stored (t_align (d_tel d2))) <= 3)%nat).
    { destruct (step_run N T pf oor lc qsort (Ok x) (Some j) ftext left_first cfg _ _ _ _ E2 S1) as (cs & Hc & Hr).
      destruct Hc as [((r & C & _) & _)|(_ & ->)]; [discriminate C|]. cbn in Hr. apply Ok1 in Hr. rewrite <- Hr. lia. }
    clear E2 o2 F1 S1 d1. unfold four.
    constructor; [apply quiet_safe; [exact F2|exact Hf|exact nil_ok]|]. intros d3 o3 E3. destruct (quiet_step _ _ _ _ _ E3 S2) as (S3 & A3 & _).
    constructor; [apply quiet_safe; [rewrite A3; exact F2|exact Hf|exact nil_ok]|]. intros d4 o4 E4. destruct (quiet_step _ _ _ _ _ E4 S3) as (S4 & A4 & _).
    constructor; [apply quiet_safe; [rewrite A4, A3; exact F2|exact Hf|exact nil_ok]|]. intros d5 o5 E5. destruct (quiet_step _ _ _ _ _ E5 S4) as (S5 & A5 & _).
    constructor; [apply quiet_safe; [rewrite A5, A4, A3; exact F2|exact Hf|exact gsv_ok]|]. intros d6 o6 _. constructor.
  - destruct zeros_spell as [Hw Hz].
    pose proof (C12_sync_fields N T pf oor qsort (Ok x) (Some j) (d_tel boot) (d_gnss boot) 0 0 eight_zeros eight_zeros 44 [] [] (d_tx boot) 256 Hw Hw Hz Hz ltac:(lia) ltac:(cbn; lia)) as H.
    cbv zeta in H. fold a_sync in H. rewrite app_nil_r in H.
    match type of H with _ = (do _ <- addReferencePoint N T qsort _ _ ?t ?a ?b ?c ?l; _) =>
      destruct (add_point N T qsort x j t a b c l Hq (WF_init N) ltac:(cbn; lia)) as (t' & Et & _ & _ & _ & Nt) end.
    rewrite Et in H. cbn [bind] in H. cbn [M_Main.history M_Main.step]. unfold onBluetoothData at 1. rewrite H. cbn [bind]. change (0 <? 1) with true. cbv iota zeta.
    set (d1 := set_nexstar N _ true).
    assert (L1 : length (d_tx d1) = 256%nat) by reflexivity.
    pose proof (C08_documented_reply N T pf oor qsort (Ok x) (Some j) (d_tel d1) (d_gnss d1) [75; 65] [] (d_tx d1) 256 [65; 35] (A_echo _ _ 65 [])) as H2.
    rewrite app_nil_r in H2. cbn [bind]. unfold onBluetoothData. rewrite H2.
    + cbn [bind]. eexists _, _. split; [reflexivity|]. cbn [set_nexstar set_tel set_tx d_tel d1 t_align]. rewrite Nt. reflexivity.
    + constructor; [red; lia|]. constructor; [red; lia|]. constructor.
    + cbn [length]. lia.
    + rewrite L1. lia.
  - intros evs d o cs E Hc. inversion Hc as [|? ? d' o' ? c cs' Es Hco Hcs]; subst. destruct Hco as [(_ & r & dc & Hsay & ->)|(Hn & _)]; [|contradiction Hn; apply a_sync_is].
    destruct zeros_spell as [Hw Hz]. destruct (Hsay 0 0 eight_zeros eight_zeros 44 [] Hw Hw Hz Hz eq_refl) as [Hr _].
    exists r, dc, cs'. split; [reflexivity|exact Hr].
Qed.
End Device.
Print Assumptions C105_alignment_follows_commands.
Print Assumptions C106_points_are_the_synchronised_ones.
Print Assumptions C106_points_sorted_and_bounded.
Print Assumptions C106_correction_always_defined.
Print Assumptions C106_triangles_well_formed.
Print Assumptions C107_careful_histories_are_memory_safe.

(** ** C108 *)
Theorem C108_stale_triangles_after_overflow_refuted : forall N qsort x j ops a p r, permuting N qsort ->
  reaches N qsort x j ops a -> numVertices a = 63 -> tris a <> [] ->
  existsb (fun q => same N q p) (map actual (stored a)) = false ->
  exists a', reaches N qsort x j (ops ++ [Add p r; Triangulate]) a' /\ stored a' = [] /\ numVertices a' = 0 /\ tris a' = tris a /\
    forall q ty, getTransformationType N a' q = Ok ty -> ty = TRIANGLE_IN \/ ty = TRIANGLE_OUT.
Proof.
  intros N qsort x j ops a p r Hq H Hn Ht Hd. assert (HW : WF N a) by (eapply run_WF; eauto; apply WF_init).
  destruct (addVertexPair_new N qsort a p r Hq HW Hd) as (a1 & r' & E & HW1 & T1 & _ & _ & _ & _ & _ & H63). destruct (H63 Hn) as [N1 S1].
  destruct (update_ok N x a1 HW1) as (a2 & E2 & HW2 & N2 & V2 & T2 & _).
  exists a2. assert (Hz : numVertices a2 = 0) by lia. split; [|split; [|split; [exact Hz|split; [congruence|]]]].
  - unfold reaches in *. rewrite (run_app N), H. cbn [bind run S_Alignment.step]. rewrite E. cbn [bind]. unfold TriangulateActual. rewrite N1. cbn [Z.ltb Z.compare bind]. rewrite E2. reflexivity.
  - unfold stored. rewrite Hz. reflexivity.
  - intros q ty. unfold getTransformationType. rewrite Hz. replace (0 =? 1) with false by reflexivity. replace (2 <=? 0) with false by reflexivity. rewrite !andb_false_r.
    assert (1 <=? numTriangles a2 = true) as ->. { apply Z.leb_le. unfold numTriangles. rewrite T2, T1. destruct (tris a); [contradiction|cbn [length]; lia]. }
    destruct (find_containing _ _ _ _ _) as [[k|]|]; [| |discriminate]; cbn [bind]; intros Eq; apply Ok1 in Eq; auto.
Qed.
Print Assumptions C108_stale_triangles_after_overflow_refuted.
(** doubles: four syncs, 59 more points, then the 64th: no points, two triangles, a correction *)
Definition four_syncs : list (op NumSF) :=
  flat_map sync [mkadd (fz 103) (fz 5) (fz 113) (fz 5); mkadd (fz 107) (fz 2) (fz 117) (fz 2); mkadd (fz 108) (fz 8) (fz 118) (fz 8); mkadd (fz 109) (fz 2) (fz 119) (fz 2)].
Example C108_nonvacuous :
  match runSF (four_syncs ++ grid_adds 59) with
  | UB _ => None
  | Ok a => match run NumSF (insertion_sort NumSF) (Ok (fz 0)) (Some (fz 0, fz 0)) a [mkadd (fz 200) (fz 1) (fz 200) (fz 1); Triangulate] with
            | UB _ => None
            | Ok a' => Some (count (Ok a), count (Ok a'), show_type (Ok a') (Pt (fz 0) (fz 0)))
            end
  end = Some (Some (63, 2), Some (0, 2), Some TRIANGLE_IN).
Proof. vm_compute. reflexivity. Qed.
