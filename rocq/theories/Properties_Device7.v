(** C135, C136: what a NexStar client (SkySafari) is told after stars were synchronised, from power-on to the
    reply bytes (exact arithmetic, any history). *)
From Verif Require Import Base Num M_Libc P_Libc M_Checkbits M_Linalg M_Helper M_Alignment S_Alignment P_Alignment P_AlignState P_AlignState2 P_AlignR M_Telescope S_Sky P_Sky M_Stellarium S_Stellarium P_Stellarium P_Stellarium2 M_Gnss M_NexStar S_NexStar P_NexStar M_Led M_Imu P_Imu M_Main P_Sched P_Main P_Main2 P_Device S_Device P_Device2 P_Device3 S_Safe Properties_Alignment Properties_Sky Properties_NexStar Properties_NexStar2 Properties_Stellarium Properties_Main3 Properties_Device3 Properties_Device4 S_Delaunay.
From Coq Require Import Permutation Reals Lra.
From Flocq Require Import Core.
Open Scope R_scope.
Notation length := List.length.

(** the declination a NexStar program reads from the second word: angles above 270 degrees are negative *)
Definition signed_angle (w : Z) : R := let v := IZR w * 360 / 4294967296 in if Rlt_bool 270 v then v - 360 else v.
Definition nexstar_unit : R := 360 / 4294967296.

(** the point is a corner of a triangle, and of every triangle whose (tolerant) containment test accepts it *)
Definition corner_only (a : align NumR) (p : point NumR) : Prop :=
  nondegenerate a /\ forall s, In s (stored a) -> actual s = p ->
    (exists t, In t (tris a) /\ corner_of a s t) /\ (forall t, In t (tris a) -> in_tri a p t -> corner_of a s t).

(** three stars, not on one line, and they got a triangle *)
Definition three_stars (cs : list (command NumR)) (a : align NumR) : Prop :=
  exists p1 p2 p3, Permutation (synchronised cs []) [p1; p2; p3] /\ ~ collinear p1 p2 p3 /\ tris a <> [].
Definition resolved (cs : list (command NumR)) (a : align NumR) (p : point NumR) : Prop :=
  (length (synchronised cs []) <= 2)%nat \/ three_stars cs a \/ corner_only a p.

Lemma three_corner_only (a : align NumR) p p1 p2 p3 : WF NumR a -> Forall (three_of (numVertices a)) (tris a) ->
  Permutation (map actual (stored a)) [p1; p2; p3] -> ~ collinear p1 p2 p3 -> tris a <> [] -> corner_only a p.
Proof.
  intros HW Ht Hp Hc Hne. pose proof (stored_length NumR a HW) as Hl. pose proof (Permutation_length Hp) as L. rewrite map_length in L. cbn [length] in L.
  destruct (stored a) as [|u [|v [|w [|z l]]]] eqn:Es; cbn [length] in L; try lia. cbn [length] in Hl.
  assert (Hn : numVertices a = 3%Z) by (destruct HW as ((? & ?) & _); lia). rewrite Hn in Ht.
  assert (Hx : forall x y z, Permutation [x; y; z] [p1; p2; p3] -> cross x y z <> 0).
  { assert (G : forall (l l' : list pointR), Permutation l l' -> forall x y z x' y' z', l = [x; y; z] -> l' = [x'; y'; z'] -> cross x' y' z' = cross x y z \/ cross x' y' z' = - cross x y z).
    { assert (G1 : forall l l' : list pointR, Permutation l l' -> length l = 3%nat -> 
        cross (nth 0 l' p) (nth 1 l' p) (nth 2 l' p) = cross (nth 0 l p) (nth 1 l p) (nth 2 l p) \/ cross (nth 0 l' p) (nth 1 l' p) (nth 2 l' p) = - cross (nth 0 l p) (nth 1 l p) (nth 2 l p)).
      { intros l l' P Hlen. destruct l as [|x1 [|x2 [|x3 [|]]]]; try discriminate Hlen.
        assert (C : forall a b c, cross a c b = - cross a b c) by (intros; unfold cross; ring).
        assert (C2 : forall a b c, cross b a c = - cross a b c) by (intros; unfold cross; ring).
        apply Permutation_sym in P. 
        destruct l' as [|y1 [|y2 [|y3 [|]]]]; try (apply Permutation_length in P; discriminate P). cbn [nth].
        pose proof (Permutation_in y1 P (or_introl eq_refl)) as I1. 
        destruct I1 as [<-|[<-|[<-|[]]]].
        - apply Permutation_cons_inv in P. destruct (Permutation_length_2_inv (Permutation_sym P)) as [E|E]; injection E as -> ->; [left; reflexivity|right; apply C].
        - assert (P' : Permutation [x2; y2; y3] [x2; x1; x3]) by (eapply perm_trans; [exact P|apply perm_swap]). apply Permutation_cons_inv in P'.
          destruct (Permutation_length_2_inv (Permutation_sym P')) as [E|E]; injection E as -> ->; [right; apply C2|left; rewrite C, C2; ring].
        - assert (P' : Permutation [x3; y2; y3] [x3; x1; x2]) by (eapply perm_trans; [exact P|]; apply Permutation_sym; apply (Permutation_middle [x1; x2] [] x3)). apply Permutation_cons_inv in P'.
          destruct (Permutation_length_2_inv (Permutation_sym P')) as [E|E]; injection E as -> ->; [left; rewrite C2, C; ring|right; unfold cross; ring]. }
      intros l l' P x0 y z x' y' z' -> ->. apply (G1 _ _ P eq_refl). }
    intros x0 y z P E. apply Hc. unfold collinear. change (turn p1 p2 (xof p3) (yof p3)) with (cross p1 p2 p3).
    destruct (G _ _ P _ _ _ _ _ _ eq_refl eq_refl) as [->| ->]; rewrite E; ring. }
  cbn [map] in Hp.
  assert (Hidx : forall t, In t (tris a) -> forall s, In s [u; v; w] -> corner_of a s t /\ 
     forall u' v' w', corners a t u' v' w' -> Permutation [actual u'; actual v'; actual w'] [p1; p2; p3]).
  { intros t Hin s Hs. rewrite Forall_forall in Ht. pose proof (Ht t Hin) as (B1 & B2 & B3 & N1 & N2 & N3).
    unfold corner_of, corners. rewrite Es.
    assert (D1 : t1 t = 0%Z \/ t1 t = 1%Z \/ t1 t = 2%Z) by lia. assert (D2 : t2 t = 0%Z \/ t2 t = 1%Z \/ t2 t = 2%Z) by lia. assert (D3 : t3 t = 0%Z \/ t3 t = 1%Z \/ t3 t = 2%Z) by lia.
    assert (Q : forall a b c : pointR, Permutation [a; b; c] [a; c; b]) by (intros; apply perm_skip, perm_swap).
    destruct D1 as [D1|[D1|D1]], D2 as [D2|[D2|D2]]; try (exfalso; congruence); destruct D3 as [D3|[D3|D3]]; try (exfalso; congruence); rewrite D1, D2, D3; cbn [Z.to_nat Pos.to_nat Pos.iter_op Nat.add nth_error].
    all: split; [eexists _, _, _; split; [repeat split|]; destruct Hs as [<-|[<-|[<-|[]]]]; auto|].
    all: intros u' v' w' (E1 & E2 & E3); injection E1 as <-; injection E2 as <-; injection E3 as <-; eapply perm_trans; [|exact Hp].
    - apply Permutation_refl.
    - apply perm_skip, perm_swap.
    - apply perm_swap.
    - eapply perm_trans; [apply perm_skip, perm_swap|apply perm_swap].
    - eapply perm_trans; [apply perm_swap|apply perm_skip, perm_swap].
    - eapply perm_trans; [apply perm_swap|]. eapply perm_trans; [apply perm_skip, perm_swap|]. apply perm_swap. }
  split.
  - intros t u' v' w' Hin Hco. apply Hx. destruct (Hidx t Hin u ltac:(left; reflexivity)) as [_ K]. eapply K; exact Hco.
  - intros s Hs _. rewrite Es in Hs. split.
    + destruct (tris a) as [|t l] eqn:Et; [congruence|]. exists t. split; [left; reflexivity|]. apply Hidx; [left; reflexivity|exact Hs].
    + intros t Hin _. apply Hidx; assumption.
Qed.

Section Device.
Context (pf : platform) (oor : conv_policy) (lc : libc NumR) (qsort : list (vpair NumR) -> list (vpair NumR)) (x : F NumR) (j : F NumR * F NumR).
Context (ftext : nat -> F NumR -> list Z) (left_first : bool) (cfg : config).
Notation step := (M_Main.step NumR TrigR pf oor lc qsort (Ok x) (Some j) ftext left_first cfg).
Notation history := (history NumR TrigR pf oor lc qsort (Ok x) (Some j) ftext left_first cfg).
Notation boot := (boot NumR).
Notation commands := (commands NumR TrigR pf oor lc qsort (Ok x) (Some j) ftext left_first cfg).

(** the position computed at a named star, whatever the number of stars *)
Lemma position_at_star : permuting NumR qsort -> forall evs d o, history boot evs = Ok (d, o) ->
  exists cs, commands boot evs cs /\ (at_most 63 cs -> forall p r dc g, first_named cs p r dc g ->
    resolved cs (t_align (d_tel d)) p ->
    forall t, t_align t = t_align (d_tel d) -> t_orient t = p -> forall lst : R,
    exists q ty, calibratedEquatorial NumR TrigR t (latitude g) lst = Ok (q, ty) /\
      vec (RA q) (DEC q) = vec (r + (lst - sidereal g)) dc /\
      (-90 <= dc <= 90 -> DEC q = dc) /\ (-90 < dc < 90 -> same_turn (RA q) (r + (lst - sidereal g))) /\
      0 <= RA q < 360).
Proof.
  intros Hq evs d o H. destruct (C105_alignment_follows_commands NumR TrigR pf oor lc qsort x j ftext left_first cfg evs d o H) as (cs & Hc & Hr).
  exists cs. split; [exact Hc|]. intros Hm p r dc g Hf Hs tl Etl HA lst.
  destruct (C106_correction_always_defined NumR TrigR pf oor lc qsort x j ftext left_first cfg Hq evs d o H (t_orient tl)) as (ty & _ & _ & Ety & _).
  destruct (named_star qsort x j cs _ p r dc g Hq Hm Hr Hf) as (v & ops & Hv & Ea & Eo & Em & Hp & A0 & E0 & _ & V0 & Ht & Ey).
  assert (HW : WF NumR (t_align (d_tel d))) by (eapply run_WF; [exact Hq|apply WF_init|exact Hr]).
  pose proof Hp as Hp0. apply Permutation_length in Hp. rewrite map_length in Hp. pose proof (stored_length NumR _ HW) as Hl.
  rewrite Eo in Hr. assert (Hn1 : (1 <= numVertices (t_align (d_tel d)))%Z).
  { destruct (stored (t_align (d_tel d))) eqn:Es; [destruct Hv|]. cbn [length] in *. destruct HW as ((? & ?) & _). lia. }
  assert (Hcal : calibrated_to (t_align (d_tel d)) (actual v) (X (reference v)) (Y (reference v))).
  { assert (Hs' : (length (synchronised cs []) <= 2)%nat \/ corner_only (t_align (d_tel d)) p).
    { destruct Hs as [Hs|[(p1 & p2 & p3 & P & Hc3 & Hne)|Hs]]; [left; exact Hs| |right; exact Hs]. right.
      apply (three_corner_only _ p p1 p2 p3 HW); [|eapply perm_trans; [exact Hp0|exact P]|exact Hc3|exact Hne].
      eapply C36_triangles_well_formed; [exact Hq|exact Em|exact Hr]. }
    clear Hs. destruct Hs' as [Hs|[Hnd Hco]].
    - apply (C46_one_or_two_points_exact qsort x j ops _ v Hq Em Hr); [split; [exact Hn1|lia]|exact Hv].
    - destruct (Hco v Hv Ea) as [C1 C2]. apply (C46_corner_exact_partial qsort x j ops _ v Hq Hr); [lia|exact Hnd|exact C1|].
      rewrite Ea. exact C2. }
  rewrite Ea in Hcal. rewrite <- HA in Hcal. rewrite <- Etl in Hcal, Ety.
  destruct (position_of_direction tl _ _ (latitude g) lst ty Ety Hcal) as (q & Eq & Vq & B1 & B2).
  rewrite Ey, (vec_turn _ _ _ Ht), V0 in Vq. apply horizon_inj in Vq.
  assert (V : vec (RA q) (DEC q) = vec (r + (lst - sidereal g)) dc).
  { replace (RA q) with (lst - (lst - RA q)) by ring. replace (r + (lst - sidereal g)) with (lst - (sidereal g - r)) by ring.
    generalize dependent (lst - RA q). intros u Vq. unfold vec in *. injection Vq as V1 V2 V3. rewrite !radians_minus, !cos_minus, !sin_minus.
    apply triple; [|  |exact V3].
    - transitivity (cos (radians lst) * (cos (radians u) * cos (radians (DEC q))) + sin (radians lst) * (sin (radians u) * cos (radians (DEC q)))); [ring|]. rewrite V1, V2, !radians_minus, !cos_minus, !sin_minus. ring.
    - transitivity (sin (radians lst) * (cos (radians u) * cos (radians (DEC q))) - cos (radians lst) * (sin (radians u) * cos (radians (DEC q)))); [ring|]. rewrite V1, V2, !radians_minus, !cos_minus, !sin_minus. ring. }
  exists q, ty. split; [exact Eq|]. split; [exact V|]. split; [|split; [|exact B1]].
  - intros Hdc. apply (vec_inj _ _ _ _ V B2 Hdc).
  - intros Hdc. destruct (vec_inj _ _ _ _ V B2 ltac:(lra)) as [Ee T]. apply T. lra.
Qed.

(** the words of the reply *)
Lemma word_up (v : R) : 0 <= v < 360 -> exists w, word_of NumR oor v = Ok w /\ word w /\ IZR w * nexstar_unit <= v < (IZR w + 1) * nexstar_unit.
Proof.
  intros Hv. unfold word_of, to_u32. cbn [ftrunc fmul fdiv fZ NumR]. set (y := v / 360 * 4294967296).
  assert (By : 0 <= y < 4294967296) by (unfold y; lra). exists (Zfloor y). rewrite Ztrunc_floor by lra.
  pose proof (Zfloor_lb y) as L. pose proof (Zfloor_ub y) as U.
  assert (W : word (Zfloor y)) by (split; [apply Zfloor_lub; simpl; lra|apply lt_IZR; lra]).
  split; [|split; [exact W|unfold nexstar_unit, y in *; lra]].
  unfold word in W. replace ((0 <=? Zfloor y)%Z && (Zfloor y <? 4294967296)%Z) with true by (symmetry; apply andb_true_iff; split; [apply Z.leb_le|apply Z.ltb_lt]; lia).
  reflexivity.
Qed.
Lemma signed_small w : (0 <= w <= 3221225472)%Z -> signed_angle w = IZR w * nexstar_unit.
Proof.
  intros [_ H]. apply IZR_le in H. unfold signed_angle, nexstar_unit. cbv zeta. rewrite Rlt_bool_false by lra. lra.
Qed.
Lemma word_dec (v : R) : -90 < v < 90 -> 0 <= v \/ oor = wrap_u32 -> exists w, word_of NumR oor v = Ok w /\ word w /\ Rabs (signed_angle w - v) < nexstar_unit.
Proof.
  intros Hv Hp. destruct (Rle_lt_dec 0 v) as [H0|H0].
  - destruct (word_up v ltac:(lra)) as (w & E & W & B). exists w. split; [exact E|]. split; [exact W|].
    assert ((0 <= w <= 3221225472)%Z). { split; [apply W|]. apply le_IZR. unfold nexstar_unit in B. lra. }
    rewrite signed_small by assumption. rewrite Rabs_left1; unfold nexstar_unit in *; lra.
  - assert (Ho : oor = wrap_u32) by (destruct Hp as [Hp|Hp]; [lra|exact Hp]). rewrite Ho. unfold word_of, to_u32. cbn [ftrunc fmul fdiv fZ NumR].
    set (y := v / 360 * 4294967296). assert (By : -1073741824 < y < 0) by (unfold y; lra).
    rewrite Ztrunc_ceil by lra. pose proof (Zceil_ub y) as U. pose proof (Zceil_lb y) as L.
    assert (Z1 : (-1073741824 < Zceil y <= 0)%Z). { split; [apply lt_IZR; lra|apply Zceil_glb; simpl; lra]. }
    destruct (Z.eq_dec (Zceil y) 0) as [Ez|Ez].
    + rewrite Ez in *. exists 0%Z. split; [reflexivity|]. split; [split; [lia|reflexivity]|]. rewrite signed_small by lia. unfold nexstar_unit, y in *.
      rewrite Rabs_pos_eq; lra.
    + exists (Zceil y + 4294967296)%Z. split; [|split].
      * replace (0 <=? Zceil y)%Z with false by (symmetry; apply Z.leb_gt; lia). cbn [andb]. unfold wrap_u32, u32. f_equal.
        replace (Zceil y) with (Zceil y + 4294967296 + (-1) * 4294967296)%Z at 1 by ring. rewrite Z_mod_plus_full. apply Z.mod_small. lia.
      * unfold word. lia.
      * unfold signed_angle. cbv zeta. rewrite plus_IZR. assert (IZ : -1073741824 < IZR (Zceil y)) by (apply IZR_lt; lia). 
        rewrite Rlt_bool_true by lra. unfold nexstar_unit, y in *. apply Rabs_def1; lra.
Qed.

Definition told (s dc : R) (b : list Z) : Prop := exists w1 w2, b = position_reply w1 w2 /\ word w1 /\ word w2 /\
  IZR w1 * nexstar_unit <= s < (IZR w1 + 1) * nexstar_unit /\ Rabs (signed_angle w2 - dc) < nexstar_unit.
(** the reply to a position request, with the tube at a named star *)
Lemma reply_at_star : permuting NumR qsort -> forall evs d o, history boot evs = Ok (d, o) ->
  exists cs, commands boot evs cs /\ (at_most 63 cs -> forall p r dc g, first_named cs p r dc g ->
    resolved cs (t_align (d_tel d)) p ->
    -90 < dc < 90 -> 0 <= dc \/ oor = wrap_u32 -> latitude (d_gnss d) = latitude g ->
    forall s, 0 <= s < 360 -> same_turn s (r + (sidereal (d_gnss d) - sidereal g)) ->
    forall t rest extra tx, t_align t = t_align (d_tel d) -> t_orient t = p -> length tx = 256%nat ->
    exists b, told s dc b /\ handleRequest NumR TrigR pf oor qsort (Ok x) (Some j) t (d_gnss d) (101%Z :: rest ++ extra) (len (101%Z :: rest)) tx 256
      = Ok (18%Z, written b tx, t)).
Proof.
  intros Hq evs d o H. destruct (position_at_star Hq evs d o H) as (cs & Hc & K).
  exists cs. split; [exact Hc|]. intros Hm p r dc g Hf Hs Hdc Hpl Hlat s Hs1 Hs2 t rest extra tx Et HA Lt.
  destruct (K Hm p r dc g Hf Hs t Et HA (sidereal (d_gnss d))) as (q & ty & Eq & _ & Hd & Ht & B).
  rewrite <- Hlat in Eq. unfold latitude, sidereal in Eq.
  specialize (Hd ltac:(lra)). specialize (Ht ltac:(lra)).
  assert (Es : RA q = s).
  { apply (same_turn_norm (RA q) s); [|exact B|exact Hs1]. destruct Ht as [k Ek], Hs2 as [k' Ek']. exists (k - k')%Z. rewrite minus_IZR. lra. }
  destruct (word_up (RA q) B) as (w1 & E1 & W1 & B1). destruct (word_dec (DEC q) ltac:(rewrite Hd; exact Hdc) ltac:(rewrite Hd; exact Hpl)) as (w2 & E2 & W2 & B2).
  pose proof (C08_position_reply NumR TrigR pf oor qsort (Ok x) (Some j) t (d_gnss d) rest extra tx 256 ltac:(lia) ltac:(rewrite Lt; lia)) as R.
  rewrite Eq in R. cbn [bind] in R.
  change (to_u32 NumR oor (fmul NumR (fdiv NumR (ra q) (fZ NumR 360)) (fZ NumR 4294967296))) with (word_of NumR oor (RA q)) in R.
  change (to_u32 NumR oor (fmul NumR (fdiv NumR (dec q) (fZ NumR 360)) (fZ NumR 4294967296))) with (word_of NumR oor (DEC q)) in R.
  rewrite E1, E2 in R. cbn [bind] in R. rewrite Es in B1. rewrite Hd in B2.
  exists (position_reply w1 w2). split; [exists w1, w2; auto|exact R].
Qed.
Lemma told_written s dc b tx : told s dc b -> firstn (Z.to_nat 18) (written b tx) = b.
Proof.
  intros (w1 & w2 & -> & _). unfold written. change (Z.to_nat 18) with (length (position_reply w1 w2)).
  rewrite firstn_app, firstn_all, Nat.sub_diag. cbn [firstn]. apply app_nil_r.
Qed.

(** ** C135: one or two stars, C136: any number.
    A position request over Bluetooth, and one read from the TCP client by the 100 ms task (which first takes
    the new orientation), are answered with the star that was synchronised there. *)
Definition answers_with_star (d : dev NumR) (p : point NumR) (s dc : R) : Prop :=
  (t_orient (d_tel d) = p -> forall rest, exists b d', told s dc b /\ step d (Bluetooth (101%Z :: rest)) = Ok (d', [BtOut b])) /\
  (forall e rest d' o', step d (Pass e) = Ok (d', o') -> the_task NumR d e = Task100ms -> d_client d <> None -> e_up_read e = true ->
     e_tcp e = Some (101%Z :: rest) -> t_orient (d_tel d') = p -> exists b, told s dc b /\ tcp_bytes o' = [b]).
Lemma both_transports : permuting NumR qsort -> forall evs d o, history boot evs = Ok (d, o) ->
  exists cs, commands boot evs cs /\ (at_most 63 cs -> forall p r dc g, first_named cs p r dc g ->
    resolved cs (t_align (d_tel d)) p ->
    -90 < dc < 90 -> 0 <= dc \/ oor = wrap_u32 -> latitude (d_gnss d) = latitude g ->
    forall s, 0 <= s < 360 -> same_turn s (r + (sidereal (d_gnss d) - sidereal g)) -> answers_with_star d p s dc).
Proof.
  intros Hq evs d o H. destruct (reply_at_star Hq evs d o H) as (cs & Hc & K).
  exists cs. split; [exact Hc|]. intros Hm p r dc g Hf Hs Hdc Hpl Hlat s Hs1 Hs2.
  pose proof (K Hm p r dc g Hf Hs Hdc Hpl Hlat s Hs1 Hs2) as K'. clear K.
  assert (Sz : sized NumR d) by (eapply history_summary; [exact H|split; reflexivity]).
  split.
  - intros HA rest. destruct (K' (d_tel d) rest [] (d_tx d) eq_refl HA (proj1 Sz)) as (b & Hb & R). rewrite app_nil_r in R.
    eexists b, _. split; [exact Hb|]. cbn [M_Main.step]. unfold onBluetoothData. 
    change (Z.of_nat (length (101%Z :: rest))) with (len (101%Z :: rest)). rewrite R. cbn [bind]. change (0 <? 18)%Z with true. cbv iota zeta.
    rewrite (told_written _ _ _ _ Hb). reflexivity.
  - intros e rest d' o' E Et Hcl Hup Hp HA. cbn [M_Main.step] in E. rewrite loop_run, Et in E. cbn [M_Main.run_task] in E.
    set (d0 := set_timers NumR d (snd (select (d_timers d) (e_now e)))) in *.
    assert (Sz0 : sized NumR d0) by exact Sz.
    pose proof (task_100_frame _ _ _ _ _ _ _ _ _ _ _ _ _ E Sz0) as (p0 & tx & rx & tel & nx & oa & ob & _ & _ & Em & Fr). cbv zeta in Fr.
    destruct Fr as (Ed' & _ & _ & _ & Eo & _). subst d'. cbn [d_tel] in HA. rewrite Eo in HA.
    apply task_100_parts in E. destruct E as (p1 & d1 & o1 & d2 & o2 & Em' & E1 & E2 & _ & ->).
    rewrite Em in Em'. injection Em' as <-.
    unfold tcp_part in E1. change (has_client (d_after_read NumR left_first d0 e p0)) with (has_client d) in E1.
    assert (Hc1 : has_client d = true) by (unfold has_client; destruct (d_client d); [reflexivity|congruence]).
    rewrite Hc1, Hup in E1. cbn [andb] in E1. unfold serve_tcp in E1. rewrite Hp in E1.
    change (d_rx (d_after_read NumR left_first d0 e p0)) with (d_rx d) in E1.
    assert (L1 : forall l, firstn 256 (101%Z :: l) = 101%Z :: firstn 255 l) by reflexivity. rewrite L1 in E1.
    set (b255 := firstn 255 rest) in *. assert (Lb : (length b255 <= 255)%nat) by (apply firstn_le_length). clearbody b255.
    replace (0 <? Z.of_nat (length (101%Z :: b255)))%Z with true in E1 by (symmetry; apply Z.ltb_lt; cbn [length]; lia).
    cbv zeta iota in E1.
    set (rxt := b255 ++ skipn (length (101%Z :: b255)) (d_rx d)) in *.
    assert (Lr : Z.of_nat (length (101%Z :: rxt)) = 256%Z).
    { unfold rxt. cbn [length]. rewrite app_length, skipn_length. cbn [length]. rewrite (proj2 Sz). lia. }
    change ((101%Z :: b255) ++ skipn (length (101%Z :: b255)) (d_rx d)) with (101%Z :: rxt) in E1.
    destruct (K' (d_tel (d_after_read NumR left_first d0 e p0)) rxt [] (d_tx d) eq_refl) as (b & Hb & R); [exact HA|exact (proj1 Sz)|].
    rewrite app_nil_r in R. change (len (101%Z :: rxt)) with (Z.of_nat (length (101%Z :: rxt))) in R. rewrite Lr in R.
    match type of E1 with (do _ <- ?h; _) = _ => replace h with (Ok (18%Z, written b (d_tx d), d_tel (d_after_read NumR left_first d0 e p0))) in E1 by (symmetry; exact R) end.
    cbn [bind] in E1. change (0 <? 18)%Z with true in E1. cbv iota zeta in E1. rewrite (told_written _ _ _ _ Hb) in E1.
    apply Ok2 in E1. destruct E1 as [<- <-].
    exists b. split; [exact Hb|]. rewrite !tcp_app. cbn [tcp_bytes flat_map app]. f_equal.
    assert (M2 : tcp_bytes o2 = []).
    { unfold mqtt_part in E2. destruct (c_mqtt cfg); [|apply Ok2 in E2; destruct E2 as [_ <-]; reflexivity].
      apply mqtt_loop_frame in E2.
      - destruct E2 as (? & _ & Po & _). apply pub_no_bytes in Po. apply Po.
      - cbn [set_nexstar set_tel set_tx d_tx]. destruct Hb as (w1 & w2 & -> & _). unfold written. rewrite app_length. cbn [length]. rewrite skipn_length.
        change (length (position_reply w1 w2)) with 18%nat. rewrite (proj1 Sz). reflexivity. }
    rewrite M2. cbn [app]. unfold conn_part. destruct (c_wifi cfg); [|reflexivity]. rewrite check_accepts. cbn [snd]. apply accepts_no_bytes.
Qed.
Theorem C135_nexstar_client_told_the_star : permuting NumR qsort -> forall evs d o, history boot evs = Ok (d, o) ->
  exists cs, commands boot evs cs /\ (at_most 63 cs -> forall p r dc g, first_named cs p r dc g -> (length (synchronised cs []) <= 2)%nat ->
    -90 < dc < 90 -> 0 <= dc \/ oor = wrap_u32 -> latitude (d_gnss d) = latitude g ->
    forall s, 0 <= s < 360 -> same_turn s (r + (sidereal (d_gnss d) - sidereal g)) -> answers_with_star d p s dc).
Proof. intros Hq evs d o H. destruct (both_transports Hq evs d o H) as (cs & Hc & K). exists cs. split; [exact Hc|]. intros Hm p r dc g Hf Hs. apply (K Hm p r dc g Hf). left. exact Hs. Qed.
Theorem C136_three_stars : permuting NumR qsort -> forall evs d o, history boot evs = Ok (d, o) ->
  exists cs, commands boot evs cs /\ (at_most 63 cs -> forall p r dc g, first_named cs p r dc g -> three_stars cs (t_align (d_tel d)) ->
    -90 < dc < 90 -> 0 <= dc \/ oor = wrap_u32 -> latitude (d_gnss d) = latitude g ->
    forall s, 0 <= s < 360 -> same_turn s (r + (sidereal (d_gnss d) - sidereal g)) -> answers_with_star d p s dc).
Proof. intros Hq evs d o H. destruct (both_transports Hq evs d o H) as (cs & Hc & K). exists cs. split; [exact Hc|]. intros Hm p r dc g Hf Hs. apply (K Hm p r dc g Hf). right. left. exact Hs. Qed.
Theorem C136_many_stars : permuting NumR qsort -> forall evs d o, history boot evs = Ok (d, o) ->
  exists cs, commands boot evs cs /\ (at_most 63 cs -> forall p r dc g, first_named cs p r dc g -> corner_only (t_align (d_tel d)) p ->
    -90 < dc < 90 -> 0 <= dc \/ oor = wrap_u32 -> latitude (d_gnss d) = latitude g ->
    forall s, 0 <= s < 360 -> same_turn s (r + (sidereal (d_gnss d) - sidereal g)) -> answers_with_star d p s dc).
Proof. intros Hq evs d o H. destruct (both_transports Hq evs d o H) as (cs & Hc & K). exists cs. split; [exact Hc|]. intros Hm p r dc g Hf Hs. apply (K Hm p r dc g Hf). right. right. exact Hs. Qed.
End Device.
Print Assumptions C135_nexstar_client_told_the_star.
Print Assumptions C136_three_stars.
Print Assumptions C136_many_stars.
