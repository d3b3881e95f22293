(** C172: a star named in a sync with other stars already synchronised is the star answered, on actual IEEE doubles *)
From Verif Require Import Base Num M_Libc P_Libc M_Checkbits M_Linalg M_Helper M_Alignment S_Alignment P_Alignment P_AlignState P_AlignState2 P_AlignR M_Telescope S_Sky P_Sky P_Round P_Helper2 P_TriIEEE M_Stellarium S_Stellarium P_Stellarium P_Stellarium2 Properties_Stellarium M_Gnss M_NexStar S_NexStar P_NexStar M_Led M_Imu P_Imu M_Main P_Sched P_Main P_Main2 P_Device S_Device P_Device2 P_Device3 S_Safe Properties_Alignment Properties_NexStar Properties_NexStar2 Properties_Main3 Properties_Device2 Properties_Device3 Properties_Device5 Properties_Device7 S_SkyIEEE P_SkyIEEE P_SkyIEEE2 P_OneIEEE P_LstIEEE P_Angle Properties_SkyIEEE P_NumCorr S_Libm P_Libm P_Finite P_LstFinite Properties_Finite Properties_FiniteDevice Properties_FiniteMessages P_Angle2 P_AlignFinite Properties_AlignIEEE Properties_AlignFinite Properties_FiniteDevice2 Properties_FiniteMessages2 Properties_Device8 Properties_FiniteMessages3.
From Coq Require Import Permutation Reals Lra Lia Floats.SpecFloat.
From Flocq Require Import Core IEEE754.BinarySingleNaN.
Open Scope R_scope.
Notation length := List.length.

Section Device.
Context (T : Trig NumSF) (pf : platform) (lc : libc NumSF) (qsort : list (vpair NumSF) -> list (vpair NumSF)) (x : F NumSF) (j : F NumSF * F NumSF).
Context (ftext : nat -> F NumSF -> list Z) (left_first : bool) (cfg : config).
(** the platform: a conversion to uint32_t out of range keeps the low 32 bits *)
Notation history := (history NumSF T pf wrap_u32 lc qsort (Ok x) (Some j) ftext left_first cfg).
Notation boot := (boot NumSF).
Notation commands := (commands NumSF T pf wrap_u32 lc qsort (Ok x) (Some j) ftext left_first cfg).
Notation step := (M_Main.step NumSF T pf wrap_u32 lc qsort (Ok x) (Some j) ftext left_first cfg).


(** the command list grown by one sync *)
Lemma sync_grows evs d o w1 w2 f1 f2 sep rest d1 o1 : history boot evs = Ok (d, o) -> word w1 -> word w2 -> spells w1 f1 -> spells w2 f2 ->
  step d (Bluetooth (sync_request f1 sep f2 rest)) = Ok (d1, o1) -> forall cs', commands boot (evs ++ [Bluetooth (sync_request f1 sep f2 rest)]) cs' ->
  exists cs r dc, commands boot evs cs /\ cs' = cs ++ [Sync (t_orient (d_tel d)) r dc (d_gnss d)] /\ is_double r (IZR w1 * unit_deg) /\ is_double dc (signed_angle w2).
Proof.
  intros Hh Hw1 Hw2 Hz1 Hz2 E cs' Hc. destruct (commands_split _ _ _ _ _ _ _ _ _ _ _ _ _ Hc) as (d' & d'' & oa & ob & cs1 & c & E1 & C1 & E2 & C2 & ->).
  rewrite Hh in E1. apply Ok2 in E1. destruct E1 as [<- _]. rewrite E in E2. apply Ok2 in E2. destruct E2 as [<- _].
  destruct C2 as [(_ & r & dc & Hsay & ->)|(Hn & _)].
  2: { contradiction Hn. exists (f1 ++ sep :: f2 ++ rest). split; [reflexivity|]. apply Forall2_len in Hz1, Hz2. cbn in Hz1, Hz2. rewrite app_length. cbn [length]. rewrite app_length, <- Hz1, <- Hz2. lia. }
  destruct (Hsay _ _ f1 f2 sep rest Hw1 Hw2 Hz1 Hz2 eq_refl) as [Hrr Hd]. cbv zeta in Hrr, Hd.
  exists cs1, r, dc. split; [exact C1|]. split; [reflexivity|]. split; [rewrite Hrr; exact (spoken_angle w1 Hw1)|rewrite Hd; exact (spoken_declination w2 Hw2)].
Qed.
(** a sync that is handled is acknowledged, and neither moves the tube nor changes what the receiver said *)
Lemma sync_handled d w1 w2 f1 f2 sep rest d1 o1 : sized NumSF d -> word w1 -> word w2 -> spells w1 f1 -> spells w2 f2 ->
  step d (Bluetooth (sync_request f1 sep f2 rest)) = Ok (d1, o1) -> o1 = [BtOut [35%Z]] /\ t_orient (d_tel d1) = t_orient (d_tel d) /\ d_gnss d1 = d_gnss d.
Proof.
  intros Sz Hw1 Hw2 Hz1 Hz2 E.
  pose proof (C12_sync_fields NumSF T pf wrap_u32 qsort (Ok x) (Some j) (d_tel d) (d_gnss d) w1 w2 f1 f2 sep rest [] (d_tx d) 256 Hw1 Hw2 Hz1 Hz2 ltac:(lia) ltac:(destruct Sz as [Lt _]; rewrite Lt; lia)) as H.
  cbv zeta in H. rewrite app_nil_r in H. cbn [M_Main.step] in E. unfold onBluetoothData in E.
  change (Z.of_nat (length (sync_request f1 sep f2 rest))) with (len (sync_request f1 sep f2 rest)) in E.
  rewrite H in E. clear H.
  match type of E with context [addReferencePoint ?n ?t1 ?q ?xx ?jj ?t ?a ?b ?c ?l] => destruct (addReferencePoint n t1 q xx jj t a b c l) as [t'|] eqn:Et; cbn [bind] in E; [|discriminate] end.
  change (0 <? 1)%Z with true in E. cbv iota zeta in E. apply Ok2 in E. destruct E as [<- <-].
  split; [reflexivity|]. split; [|reflexivity]. cbn [d_tel]. unfold addReferencePoint in Et.
  match type of Et with (do _ <- ?a; _) = _ => destruct a; cbn [bind] in Et; [|discriminate] end.
  destruct a as [b a]. match type of Et with (do _ <- ?a; _) = _ => destruct a; cbn [bind] in Et; [|discriminate] end.
  injection Et as <-. reflexivity.
Qed.
Lemma synchronised_app (cs cs' : list (command NumSF)) : forall l, synchronised (cs ++ cs') l = synchronised cs' (synchronised cs l).
Proof. induction cs as [|[p r dc g|] cs IH]; intros l; cbn [app synchronised]; [reflexivity|apply IH|apply IH]. Qed.

(** However many stars were synchronised before: one more, at an orientation that is not one of theirs, is acknowledged and is what the
    next position request is answered with, when the stars resolve the sky (two, three, any number: C163). *)
Theorem C172_named_star_is_answered : permuting NumSF qsort -> c_libm T -> forall evs d o, history boot evs = Ok (d, o) -> sane_gnss (d_gnss d) ->
  forall w1 w2 f1 f2 sep rest, word w1 -> word w2 -> spells w1 f1 -> spells w2 f2 ->
  forall d1 o1, step d (Bluetooth (sync_request f1 sep f2 rest)) = Ok (d1, o1) -> o1 = [BtOut [35%Z]] /\
  exists cs r dc, commands boot evs cs /\ is_double r (IZR w1 * unit_deg) /\ is_double dc (signed_angle w2) /\
    let cs' := cs ++ [Sync (t_orient (d_tel d)) r dc (d_gnss d)] in
    (at_most 63 cs' -> sensible_doubles cs' -> existsb (fun q => same NumSF q (t_orient (d_tel d))) (synchronised cs []) = false ->
     forall X H e : R, is_double x X -> 1 <= H -> Rabs X <= H -> e <= / 1100 -> resolves_doubles H e cs' (t_align (d_tel d1)) ->
     forall rest', exists v1 v2 d2, step d1 (Bluetooth (101%Z :: rest')) = Ok (d2, [BtOut (position_reply v1 v2)]) /\
       tell (4 * e + bpow radix2 (-27)) (3 / 2 * e + 1 / 10 ^ 7) (3 / 2 * e + 1 / 10 ^ 7) (fun D => cos (radians D)) v1 v2 (IZR w1 * unit_deg) (signed_angle w2)).
Proof.
  intros Hq HT evs d o Hh Hg w1 w2 f1 f2 sep rest Hw1 Hw2 Hz1 Hz2 d1 o1 E.
  assert (Sz : sized NumSF d) by (eapply history_summary; [exact Hh|split; reflexivity]).
  destruct (sync_handled _ _ _ _ _ _ _ _ _ Sz Hw1 Hw2 Hz1 Hz2 E) as (-> & Eo & Eg). split; [reflexivity|].
  assert (Hh1 : exists o2, history boot (evs ++ [Bluetooth (sync_request f1 sep f2 rest)]) = Ok (d1, o2)).
  { eexists. rewrite history_app, Hh. cbn [bind M_Main.history]. rewrite E. cbn [bind]. reflexivity. }
  destruct Hh1 as [o2 Hh1].
  destruct (C167_every_star_is_told T pf lc qsort x j ftext left_first cfg Hq HT _ _ _ Hh1) as (cs' & Hc & K).
  destruct (sync_grows _ _ _ _ _ _ _ _ _ _ _ Hh Hw1 Hw2 Hz1 Hz2 E _ Hc) as (cs & r & dc & C1 & -> & Mr & Md).
  exists cs, r, dc. split; [exact C1|]. split; [exact Mr|]. split; [exact Md|]. cbv zeta. intros Hm Hs Hnew X H e Mx H1 HX He Hres rest'.
  destruct (K Hm Hs X H e Mx H1 HX He Hres (t_orient (d_tel d)) r dc (d_gnss d)) with (R0 := IZR w1 * unit_deg) (D := signed_angle w2) as (S & MS & _ & Q); try assumption.
  { exists cs, []. split; [reflexivity|]. split; [intros []|]. exact Hnew. }
  rewrite Eg in Q. destruct (Q Hg eq_refl rest') as (S' & v1 & v2 & d2 & MS' & Er & Tl). exists v1, v2, d2. split; [exact Er|].
  rewrite (Properties_FiniteMessages.double_unique _ _ _ MS' MS) in Tl. replace (IZR w1 * unit_deg + (S - S)) with (IZR w1 * unit_deg) in Tl by lra. exact Tl.
Qed.

(** the commands of a history in which one star has been synchronised since the last reset *)
Definition one_star_so_far (evs : list (event NumSF)) (p : point NumSF) : Prop := forall cs, commands boot evs cs -> at_most 62 cs /\ sensible_doubles cs /\ synchronised cs [] = [p].
(** The second star, at least a degree away from the first: always handled. *)
Theorem C172_second_star_is_answered : permuting NumSF qsort -> c_libm T -> forall evs d o, history boot evs = Ok (d, o) -> 
  forall p, one_star_so_far evs p -> forall q q' : point NumB, valued p q -> valued (t_orient (d_tel d)) q' -> tube q' -> 1 <= separation q q' ->
  forall X H e : R, is_double x X -> 1 <= H -> Rabs X <= H -> e <= / 1100 -> (gain2 (separation q q') * H) ^ 2 / 10000000 <= e ->
  sane_gnss (d_gnss d) -> forall w1 w2 f1 f2 sep rest, word w1 -> word w2 -> spells w1 f1 -> spells w2 f2 ->
  exists d1, step d (Bluetooth (sync_request f1 sep f2 rest)) = Ok (d1, [BtOut [35%Z]]) /\
  forall rest', exists v1 v2 d2, step d1 (Bluetooth (101%Z :: rest')) = Ok (d2, [BtOut (position_reply v1 v2)]) /\
    tell (4 * e + bpow radix2 (-27)) (3 / 2 * e + 1 / 10 ^ 7) (3 / 2 * e + 1 / 10 ^ 7) (fun D => cos (radians D)) v1 v2 (IZR w1 * unit_deg) (signed_angle w2).
Proof.
  intros Hq HT evs d o Hh p Hone q q' Vq Vq' Tq' Sep X H e Mx H1 HX He Hgain Hg w1 w2 f1 f2 sep rest Hw1 Hw2 Hz1 Hz2.
  assert (Sz : sized NumSF d) by (eapply history_summary; [exact Hh|split; reflexivity]).
  assert (Hn : numVertices (t_align (d_tel d)) = 1%Z).
  { destruct (C106_points_are_the_synchronised_ones NumSF T pf wrap_u32 lc qsort x j ftext left_first cfg Hq evs d o Hh) as (cs0 & Hc0 & K0).
    destruct (Hone _ Hc0) as (Hm0 & _ & Hs0). destruct K0 as [_ K0]; [intros k; specialize (Hm0 k); lia|]. rewrite Hs0 in K0. exact K0. }
  assert (HW : WF NumSF (t_align (d_tel d))).
  { destruct (C105_alignment_follows_commands NumSF T pf wrap_u32 lc qsort x j ftext left_first cfg evs d o Hh) as (cs0 & Hc0 & Hr). eapply run_WF; [exact Hq|apply WF_init|exact Hr]. }
  assert (E0 : exists d1 o1, step d (Bluetooth (sync_request f1 sep f2 rest)) = Ok (d1, o1)).
  { pose proof (C12_sync_fields NumSF T pf wrap_u32 qsort (Ok x) (Some j) (d_tel d) (d_gnss d) w1 w2 f1 f2 sep rest [] (d_tx d) 256 Hw1 Hw2 Hz1 Hz2 ltac:(lia) ltac:(destruct Sz as [Lt _]; rewrite Lt; lia)) as G.
    cbv zeta in G. rewrite app_nil_r in G.
    match type of G with _ = (do _ <- addReferencePoint _ _ qsort _ _ ?t ?a ?b ?c ?l; _) =>
      destruct (P_Device.add_point NumSF T qsort x j t a b c l Hq HW ltac:(lia)) as (t' & Et & _) end.
    rewrite Et in G. cbn [bind] in G. eexists _, _. cbn [M_Main.step]. unfold onBluetoothData. change (Z.of_nat (length (sync_request f1 sep f2 rest))) with (len (sync_request f1 sep f2 rest)).
    rewrite G. cbn [bind]. change (0 <? 1)%Z with true. cbv iota zeta. reflexivity. }
  destruct E0 as (d1 & o1 & E).
  destruct (C172_named_star_is_answered Hq HT evs d o Hh Hg w1 w2 f1 f2 sep rest Hw1 Hw2 Hz1 Hz2 d1 o1 E) as (-> & cs & r & dc & C1 & Mr & Md & K). cbv zeta in K.
  exists d1. split; [exact E|]. destruct (Hone _ C1) as (Hm & Hs & Hsy).
  assert (Dif : same NumSF p (t_orient (d_tel d)) = false).
  { destruct (same NumSF p (t_orient (d_tel d))) eqn:Sm; [|reflexivity]. exfalso. unfold same in Sm. apply andb_true_iff in Sm. destruct Sm as [S1 S2]. destruct Vq as [Va Vb], Vq' as [Va' Vb']. apply double_means in Va, Vb, Va', Vb'.
    change (SFeqb (px p) (px (t_orient (d_tel d))) = true) in S1. change (SFeqb (py p) (py (t_orient (d_tel d))) = true) in S2.
    rewrite (means_eq _ _ _ _ Va Va') in S1. rewrite (means_eq _ _ _ _ Vb Vb') in S2. revert S1 S2. case Req_bool_spec; [|discriminate]. intros S1 _. case Req_bool_spec; [|discriminate]. intros S2 _.
    unfold separation in Sep. rewrite S1, S2 in Sep. replace ((px q' - px q') ^ 2 + (py q' - py q') ^ 2) with 0 in Sep by (change (F NumB) with R in *; ring). rewrite sqrt_0 in Sep. lra. }
  assert (Hsy' : forall r dc g, synchronised (cs ++ [Sync (t_orient (d_tel d)) r dc g]) [] = [p; t_orient (d_tel d)]).
  { intros r' dc' g'. rewrite synchronised_app, Hsy. cbn [synchronised existsb app]. rewrite Dif. reflexivity. }
  apply (K) with (X := X) (H := H); try assumption.
  - intros k. rewrite firstn_app. destruct (Nat.le_gt_cases k (length cs)) as [Lk|Lk].
    + replace (k - length cs)%nat with O by lia. rewrite app_nil_r. specialize (Hm k). lia.
    + rewrite firstn_all2 by lia. destruct (k - length cs)%nat as [|n] eqn:En; [lia|]. cbn [firstn]. rewrite firstn_nil, Hsy'. cbn. lia.
  - intros p' r' dc' g' Hin. apply in_app_iff in Hin. destruct Hin as [Hin|[Hin|[]]]; [exact (Hs _ _ _ _ Hin)|]. injection Hin as <- <- <- <-.
    destruct Hg as (Hci & LA & LO & Mla & Mlo & Bla & Blo). exists q', (IZR w1 * unit_deg), (signed_angle w2), LA, LO.
    assert (B1 : 0 <= IZR w1 * unit_deg <= 360). { unfold word in Hw1. destruct Hw1 as [W0 W1]. apply IZR_le in W0. apply IZR_lt in W1. unfold unit_deg. lra. }
    assert (B2 : Rabs (signed_angle w2) <= 4000).
    { unfold word in Hw2. destruct Hw2 as [W0 W1]. apply IZR_le in W0. apply IZR_lt in W1. unfold signed_angle. cbv zeta. destruct (Rlt_bool 270 _); apply Rabs_le; lra. }
    split; [exact Vq'|]. split; [exact Tq'|]. split; [exact Mr|]. split; [exact Md|]. split; [exact Mla|]. split; [exact Mlo|]. split; [apply Rabs_le; lra|]. split; [exact B2|]. split; [exact Bla|]. split; [exact Blo|exact Hci].
  - rewrite Hsy. cbn [existsb]. rewrite Dif. reflexivity.
  - left. exists p, (t_orient (d_tel d)), q, q'. split; [rewrite Hsy'; apply Permutation_refl|]. split; [exact Vq|]. split; [exact Vq'|]. split; [exact Sep|exact Hgain].
Qed.
End Device.
Print Assumptions C172_named_star_is_answered.
Print Assumptions C172_second_star_is_answered.

(** Non-vacuity: a star at power-on, then the tube is turned to (126, 60): one star so far, 139 degrees away (trigonometric functions
    constant). *)
From Verif Require Import P_AlignWitness Properties_Publish Properties_DeviceIEEE.
Notation fz := P_AlignWitness.fz.
Notation cfg1 := (Config true true false false).
Definition one_and_turned : list (event NumSF) := Bluetooth a_sync :: turn_to 100001 0xC000.
Definition hist2 := M_Main.history NumSF T1 esp32 wrap_u32 lcSF (insertion_sort NumSF) (Ok (fz 0)) (Some (fz 0, fz 0)) ft0 true cfg1.
Definition step2 := M_Main.step NumSF T1 esp32 wrap_u32 lcSF (insertion_sort NumSF) (Ok (fz 0)) (Some (fz 0, fz 0)) ft0 true cfg1.
Definition commands2 := P_Device2.commands NumSF T1 esp32 wrap_u32 lcSF (insertion_sort NumSF) (Ok (fz 0)) (Some (fz 0, fz 0)) ft0 true cfg1.
Lemma one_event ev evs cs d : commands2 d (ev :: evs) cs -> exists d' o c cs', step2 d ev = Ok (d', o) /\ cs = c ++ cs' /\ commands_of NumSF cfg1 d ev d' c /\ commands2 d' evs cs'.
Proof. intros H. inversion H; subst. do 4 eexists. repeat split; eassumption. Qed.
Definition turned_pass (now spi : Z) : event NumSF := Pass (Env NumSF now (fz 0, fz 0, fz 0) (Z.shiftr spi 8, Z.land spi 255)%Z false false false None [] [] [] false (fz 0)).
Lemma one_pass now spi d d' c : commands_of NumSF cfg1 d (turned_pass now spi) d' c -> c = [].
Proof.
  intros H. unfold commands_of, turned_pass in H. match type of H with match ?t with _ => _ end => destruct t end; try exact H. destruct H as (s & -> & H).
  cbn [e_up_read] in H. rewrite andb_false_r in H. cbn [andb] in H. rewrite H. unfold resets. cbn [e_msgs existsb]. rewrite ?andb_false_r. reflexivity.
Qed.
Definition turned_point : point NumSF := @Pt NumSF (S754_finite false 8866461766385664 (-46)) (S754_finite false 8444249301319680 (-47)).
Definition seen (r : res (dev NumSF * list out)) : option (spec_float * spec_float * spec_float * spec_float * tm) :=
  match r with
  | Ok (d, _) => Some (px (t_orient (d_tel d)), py (t_orient (d_tel d)), g_latitude (d_gnss d), g_longitude (d_gnss d), g_time (d_gnss d))
  | UB _ => None
  end.
Lemma seen_ok r a b c e t : seen r = Some (a, b, c, e, t) -> exists d o, r = Ok (d, o) /\ px (t_orient (d_tel d)) = a /\ py (t_orient (d_tel d)) = b /\ g_latitude (d_gnss d) = c /\ g_longitude (d_gnss d) = e /\ g_time (d_gnss d) = t.
Proof. intros H. destruct r as [[d o]|]; [|discriminate]. cbn [seen] in H. inversion H. exists d, o. repeat split. Qed.
Lemma turned_seen : seen (hist2 (M_Main.boot NumSF) one_and_turned) =
  Some (S754_finite false 8866461766385664 (-46), S754_finite false 8444249301319680 (-47), fz 48, fz 11, Tm 0 0 0 0 0 0).
Proof. vm_compute. reflexivity. Qed.
Lemma point_eta (p : point NumSF) a b : px p = a -> py p = b -> p = @Pt NumSF a b.
Proof. destruct p. cbn. intros -> ->. reflexivity. Qed.
Lemma turned_run : exists d o, hist2 (M_Main.boot NumSF) one_and_turned = Ok (d, o) /\ t_orient (d_tel d) = turned_point /\ sane_gnss (d_gnss d).
Proof.
  destruct (seen_ok _ _ _ _ _ _ turned_seen) as (d & o & E & E1 & E2 & E3 & E4 & E5). exists d, o. split; [exact E|]. split; [exact (point_eta _ _ _ E1 E2)|].
  split; [rewrite E5; repeat split; cbn; lia|]. exists 48, 11. rewrite E3, E4. split; [apply (int_double 48); lia|]. split; [apply (int_double 11); lia|]. rewrite !Rabs_pos_eq; lra.
Qed.
Lemma no_event d cs : commands2 d [] cs -> cs = [].
Proof. intros H. inversion H. reflexivity. Qed.
Example C172_nonvacuous : (exists d o, hist2 (M_Main.boot NumSF) one_and_turned = Ok (d, o) /\ t_orient (d_tel d) = turned_point /\ sane_gnss (d_gnss d)) /\
  (forall cs, commands2 (M_Main.boot NumSF) one_and_turned cs -> at_most 62 cs /\ sensible_doubles cs /\ synchronised cs [] = [@Pt NumSF (fz 0) (fz 0)]) /\
  valued (@Pt NumSF (fz 0) (fz 0)) (@Pt NumB 0 0) /\ valued turned_point (@Pt NumB 126 60) /\ tube (@Pt NumB 126 60) /\ 60 <= separation (@Pt NumB 0 0) (@Pt NumB 126 60) /\
  is_double (fz 0) 0 /\ (gain2 (separation (@Pt NumB 0 0) (@Pt NumB 126 60)) * 1) ^ 2 / 10000000 <= 8 / 100000 /\ 8 / 100000 <= / 1100 /\ 
  word 0 /\ spells 0 eight_zeros.
Proof.
  assert (M0 : is_double (fz 0) 0) by (apply (int_double 0); lia).
  assert (B : forall z, (Z.abs z <= 2 ^ 53)%Z -> is_b64 (IZR z)) by (intros z Hz; apply int_b64; exact Hz).
  assert (V1 : valued turned_point (@Pt NumB 126 60)).
  { split; (split; [vm_compute; reflexivity|]; split; [reflexivity|]; unfold turned_point, SF2R, F2R; cbn [cond_Zopp px py Fnum Fexp]; simpl bpow; lra). }
  assert (V0 : valued (@Pt NumSF (fz 0) (fz 0)) (@Pt NumB 0 0)) by (split; exact M0).
  assert (T0 : tube (@Pt NumB 0 0)) by (split; [apply (B 0%Z); lia|]; split; [apply (B 0%Z); lia|]; split; cbn [px py]; rewrite Rabs_R0; lra).
  assert (S : 60 <= separation (@Pt NumB 0 0) (@Pt NumB 126 60)).
  { unfold separation. cbn [px py]. change (F NumB) with R in *. rewrite <- (sqrt_pow2 60) by lra. apply sqrt_le_1_alt. nra. }
  split.
  { exact turned_run. }
  split; [|split; [exact V0|split; [exact V1|split; [|split; [exact S|split; [exact M0|split; [apply gain_67; exact S|split; [lra|exact zeros_spell]]]]]]]].
  - intros cs H. unfold one_and_turned, turn_to in H. cbn [map] in H.
    apply one_event in H. destruct H as (d1 & o1 & c1 & cs1 & E1 & -> & C1 & H).
    apply one_event in H. destruct H as (d2 & o2 & c2 & cs2 & E2 & -> & C2 & H). apply (one_pass _ 0xC000) in C2. subst c2.
    apply one_event in H. destruct H as (d3 & o3 & c3 & cs3 & E3 & -> & C3 & H). apply (one_pass _ 0xC000) in C3. subst c3.
    apply one_event in H. destruct H as (d4 & o4 & c4 & cs4 & E4 & -> & C4 & H). apply (one_pass _ 0xC000) in C4. subst c4.
    apply no_event in H. subst cs4. cbn [app]. clear - V0 T0 C1.
    destruct C1 as [(_ & r & dc & Hsay & ->)|(Hn & _)]; [|contradiction Hn; apply a_sync_is]. destruct zeros_spell as [Hw Hz].
    destruct (Hsay 0%Z 0%Z eight_zeros eight_zeros 44%Z [] Hw Hw Hz Hz eq_refl) as [Hr Hd]. cbv zeta in Hr, Hd.
    assert (Mr : is_double r (0 * unit_deg)) by (rewrite Hr; exact (spoken_angle 0 Hw)). assert (Md : is_double dc (signed_angle 0)) by (rewrite Hd; exact (spoken_declination 0 Hw)). clear Hr Hd Hsay.
    cbn [app]. change (t_orient (d_tel (M_Main.boot NumSF))) with (@Pt NumSF (fz 0) (fz 0)).
    split; [|split; [|reflexivity]].
    + intros [|[|k]]; cbn; lia.
    + intros p r' dc' g [E|[]]. injection E as <- <- <- <-. destruct boot_sane as (Hci & LA & LO & Mla & Mlo & Bla & Blo).
      exists (@Pt NumB 0 0), (0 * unit_deg), (signed_angle 0), LA, LO. split; [exact V0|]. split; [exact T0|]. split; [exact Mr|]. split; [exact Md|]. split; [exact Mla|]. split; [exact Mlo|].
      split; [rewrite Rmult_0_l, Rabs_R0; lra|]. split; [|split; [exact Bla|split; [exact Blo|exact Hci]]].
      unfold signed_angle. cbv zeta. rewrite Rlt_bool_false by lra. apply Rabs_le. lra.
  - split; [apply (B 126%Z); lia|]. split; [apply (B 60%Z); lia|]. split; cbn [px py]; apply Rabs_le; lra.
Qed.
