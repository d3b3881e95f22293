(** C173: a star named by a goto of the Stellarium client is what the next position message says, on actual IEEE doubles *)
From Verif Require Import Base Num M_Libc P_Libc M_Checkbits M_Linalg M_Helper M_Alignment S_Alignment P_Alignment P_AlignState P_AlignState2 P_AlignR M_Telescope S_Sky P_Sky P_Round P_Helper2 P_TriIEEE M_Stellarium S_Stellarium P_Stellarium P_Stellarium2 Properties_Stellarium M_Gnss M_NexStar S_NexStar P_NexStar M_Led M_Imu P_Imu M_Main P_Sched P_Main P_Main2 P_Device S_Device P_Device2 P_Device3 S_Safe Properties_Alignment Properties_NexStar Properties_NexStar2 Properties_Main3 Properties_Device2 Properties_Device3 Properties_Device5 Properties_Device7 S_SkyIEEE P_SkyIEEE P_SkyIEEE2 P_OneIEEE P_LstIEEE P_Angle Properties_SkyIEEE P_NumCorr S_Libm P_Libm P_Finite P_LstFinite Properties_Finite Properties_FiniteDevice Properties_FiniteMessages P_Angle2 P_AlignFinite Properties_AlignIEEE Properties_AlignFinite Properties_FiniteDevice2 Properties_FiniteMessages2 Properties_Device8 Properties_FiniteMessages3 Properties_Node Properties_FiniteSync.
From Coq Require Import Permutation Reals Lra Lia Floats.SpecFloat.
From Flocq Require Import Core IEEE754.BinarySingleNaN.
Open Scope R_scope.
Notation length := List.length.

Section Device.
Context (T : Trig NumSF) (pf : platform) (lc : libc NumSF) (qsort : list (vpair NumSF) -> list (vpair NumSF)) (x : F NumSF) (j : F NumSF * F NumSF).
Context (ftext : nat -> F NumSF -> list Z) (left_first : bool) (cfg : config).
(** the platform: a conversion to uint32_t out of range keeps the low 32 bits *)
Notation history := (history NumSF T pf wrap_u32 lc qsort (Ok x) (Some j) ftext left_first cfg).
Notation boot := (boot NumSF).
Notation commands := (commands NumSF T pf wrap_u32 lc qsort (Ok x) (Some j) ftext left_first cfg).
Notation step := (M_Main.step NumSF T pf wrap_u32 lc qsort (Ok x) (Some j) ftext left_first cfg).



(** a pass that reads a goto from the client, and no reset *)
Definition goto_arrives (d : dev NumSF) (e : env NumSF) (us w1 w2 : Z) : Prop :=
  the_task NumSF d e = Task100ms /\ d_client d <> None /\ e_up_read e = true /\ e_tcp e = Some (goto_message us w1 w2) /\
  P_Device2.resets NumSF cfg e = false /\ bytes_ok (d_rx d).

Lemma goto_angle w : word w -> is_double (fmul NumSF (fdiv NumSF (fZ NumSF w) (fZ NumSF 2147483648)) (fZ NumSF 180)) (IZR w * unit_deg).
Proof.
  intros Hw. unfold word in Hw. apply double_means.
  assert (K : IZR w * unit_deg = fmul NumB (fdiv NumB (fZ NumB w) (fZ NumB 2147483648)) (fZ NumB 180)).
  { cbn [fdiv fmul fZ NumB]. rewrite (b64_of_int w), (b64_of_int 2147483648), (b64_of_int 180) by lia.
    replace (IZR w / 2147483648) with (IZR w * bpow radix2 (-31)) by (simpl bpow; lra). rewrite b64_exact_scaled by lia.
    replace (IZR w * bpow radix2 (-31) * 180) with (IZR (180 * w) * bpow radix2 (-31)) by (rewrite mult_IZR; lra). rewrite b64_exact_scaled by lia. rewrite mult_IZR. simpl bpow. unfold unit_deg. lra. }
  rewrite K. refine (proj1 (_ : mb 40 _ _)). apply (mb_fmul 32 8); [lia| |apply mb_int; lia]. apply mb_divZ; [lia|apply mb_int; lia|lia].
Qed.
(** the field of a buffer that starts with the message *)
Lemma field_prefix k n l l' : (k + n <= length l)%nat -> S_Stellarium.field k n (l ++ l') = S_Stellarium.field k n l.
Proof.
  intros H. unfold S_Stellarium.field. rewrite skipn_app, firstn_app, skipn_length. replace (n - (length l - k))%nat with O by lia. cbn [firstn]. rewrite app_nil_r. reflexivity.
Qed.
Lemma goto_length us w1 w2 : length (goto_message us w1 w2) = 20%nat.
Proof. reflexivity. Qed.
Lemma goto_bytes us w1 w2 : bytes_ok (goto_message us w1 w2).
Proof. apply C60_nonvacuous. Qed.
Lemma goto_not_recognised us w1 w2 l : ~ recognised (goto_message us w1 w2 ++ l).
Proof.
  intros H. change (goto_message us w1 w2 ++ l) with (20%Z :: tl (goto_message us w1 w2) ++ l) in H.
  destruct H as [(c & r & E)|[(a & r & Hi & E)|[(a & r & _ & E)|(r & E & _)]]]; try discriminate. injection E as <- _. cbn [In] in Hi. decompose [or] Hi; discriminate || contradiction.
Qed.
(** events in which nobody names a star and nothing is reset *)
Definition nothing_said (d : dev NumSF) (evs : list (event NumSF)) : Prop := forall cs, commands d evs cs -> cs = [].
Lemma commands_app evs evs' : forall d cs d1 o1, history d evs = Ok (d1, o1) -> commands d (evs ++ evs') cs -> exists cs1 cs2, commands d evs cs1 /\ commands d1 evs' cs2 /\ cs = cs1 ++ cs2.
Proof.
  induction evs as [|e evs IH]; intros d cs d1 o1 Hh H; cbn [app M_Main.history] in *.
  - apply Ok2 in Hh. destruct Hh as [-> _]. exists [], cs. split; [constructor|]. split; [exact H|reflexivity].
  - inversion H as [|? ? d' o ? c cs' Es Hc Hcs]; subst. rewrite Es in Hh. cbn [bind] in Hh.
    destruct (history d' evs) as [[d2 o2]|] eqn:E; cbn [bind] in Hh; [|discriminate]. apply Ok2 in Hh. destruct Hh as [-> _].
    destruct (IH _ _ _ _ E Hcs) as (cs1 & cs2 & C1 & C2 & ->). exists (c ++ cs1), cs2. split; [econstructor; eassumption|]. split; [exact C2|apply app_assoc].
Qed.
(** the command list grown by the goto *)
Lemma goto_grows evs d o e us w1 w2 d1 o1 : history boot evs = Ok (d, o) -> sized NumSF d -> word w1 -> word w2 -> goto_arrives d e us w1 w2 ->
  step d (Pass e) = Ok (d1, o1) -> forall cs', commands boot (evs ++ [Pass e]) cs' ->
  exists cs r dc, commands boot evs cs /\ cs' = cs ++ [Sync (t_orient (d_tel d1)) r dc (d_gnss d)] /\ is_double r (IZR w1 * unit_deg) /\ is_double dc (IZR w2 * unit_deg).
Proof.
  intros Hh Sz Hw1 Hw2 (Et & Hcl & Hup & Hp & Hr & Hb) E cs' Hc. destruct (commands_split _ _ _ _ _ _ _ _ _ _ _ _ _ Hc) as (d' & d'' & oa & ob & cs1 & c & E1 & C1 & E2 & C2 & ->).
  rewrite Hh in E1. apply Ok2 in E1. destruct E1 as [<- _]. rewrite E in E2. apply Ok2 in E2. destruct E2 as [<- _].
  unfold commands_of in C2. rewrite Et, Hr in C2. destruct C2 as (s & -> & C2). rewrite app_nil_r.
  assert (Hc1 : has_client d = true) by (unfold has_client; destruct (d_client d); [reflexivity|congruence]).
  assert (Er : received NumSF e = 20%Z) by (unfold received; rewrite Hp; rewrite firstn_all2 by (rewrite goto_length; lia); reflexivity).
  assert (Ex : rx_after NumSF d e = goto_message us w1 w2 ++ skipn 20 (d_rx d)) by (unfold rx_after; rewrite Hp; rewrite firstn_all2 by (rewrite goto_length; lia); reflexivity).
  rewrite Hc1, Hup, Er, Ex in C2. cbn [andb Z.ltb Z.compare] in C2. set (rx := skipn 20 (d_rx d)) in *.
  assert (Hb' : bytes_ok (goto_message us w1 w2 ++ rx)).
  { unfold bytes_ok. apply Forall_app. split; [apply goto_bytes|]. rewrite <- (firstn_skipn 20 (d_rx d)) in Hb. apply Forall_app in Hb. apply Hb. }
  destruct (goto_fields us w1 w2) as (F1 & F2 & _ & F4 & F5).
  assert (G : S_Device.is_goto (goto_message us w1 w2 ++ rx) 20).
  { unfold S_Device.is_goto. rewrite !field_prefix by (rewrite goto_length; lia). rewrite F1, F2. lia. }
  destruct C2 as [(r & dc & Ho & ->)|[[_ Hn] _]].
  - destruct Ho as [[Hs _]|[_ Hs]].
    + contradiction (goto_not_recognised us w1 w2 rx). right. right. right. exact Hs.
    + destruct (Hs Hb') as [_ [Sr Sd]]. cbv zeta in Sr, Sd. rewrite field_prefix in Sr, Sd by (rewrite goto_length; lia). rewrite F4 in Sr. rewrite F5 in Sd.
      change (256 ^ 4)%Z with 4294967296%Z in Sr, Sd. unfold word in Hw1, Hw2. rewrite Z.mod_small in Sr, Sd by lia.
      exists cs1, r, dc. split; [exact C1|]. split; [reflexivity|]. split; [rewrite Sr; apply goto_angle; exact Hw1|rewrite Sd; apply goto_angle; exact Hw2].
  - contradiction (Hn Hb'). split; [apply goto_not_recognised|exact G].
Qed.

(** declinations south of the equator arrive as angles above 180; it is the same place *)
Lemma south_same w A : vec A (IZR w * unit_deg) = vec A (IZR (signed_word w) * unit_deg).
Proof.
  unfold signed_word. destruct (w <? 2147483648)%Z; [reflexivity|]. rewrite minus_IZR. unfold unit_deg.
  replace ((IZR w - 4294967296) * (180 / 2147483648)) with (IZR w * (180 / 2147483648) - 360) by lra. set (a := IZR w * (180 / 2147483648)). assert (Hs : same_turn a (a - 360)) by (exists 1%Z; lra). unfold vec. rewrite (cos_turn _ _ Hs), (sin_turn _ _ Hs). reflexivity.
Qed.

(** The words say the star named, moved by [S' - S]: as a direction, and north of the equator up to declination 85 in degrees. *)
Definition says_star (f ud ur : R) (v : R -> R) (v1 v2 w1 w2 : Z) (drift : R) : Prop := word v1 /\ word v2 /\
  near f (said v1 v2) (vec (IZR w1 * unit_deg + drift) (IZR (signed_word w2) * unit_deg)) /\
  (IZR w2 * unit_deg <= 85 -> Rabs (IZR (signed_word v2) * unit_deg - IZR w2 * unit_deg) <= ud /\
     exists k : Z, Rabs (IZR v1 * unit_deg - (IZR w1 * unit_deg + drift + 360 * IZR k)) * v (IZR w2 * unit_deg) <= ur).
Lemma tell_says f ud ur v v1 v2 w1 w2 dr : word w2 -> tell f ud ur v v1 v2 (IZR w1 * unit_deg + dr) (IZR w2 * unit_deg) -> says_star f ud ur v v1 v2 w1 w2 dr.
Proof.
  intros Hw (W1 & W2 & Nr & H). split; [exact W1|]. split; [exact W2|]. split; [rewrite <- south_same; exact Nr|]. intros L. apply H.
  unfold word in Hw. destruct Hw as [W0 _]. apply IZR_le in W0. unfold unit_deg in *. apply Rabs_le. lra.
Qed.
Lemma word_angle w : word w -> 0 <= IZR w * unit_deg <= 360.
Proof. intros [W0 W1]. apply IZR_le in W0. apply IZR_lt in W1. unfold unit_deg. lra. Qed.

(** The first star since the last reset. *)
Theorem C173_first_star_by_goto : permuting NumSF qsort -> c_libm T -> forall evs d o, history boot evs = Ok (d, o) -> no_star_yet T pf lc qsort x j ftext left_first cfg evs ->
  forall e us w1 w2 d1 o1, word w1 -> word w2 -> goto_arrives d e us w1 w2 -> step d (Pass e) = Ok (d1, o1) ->
  forall PX PY : R, is_point (t_orient (d_tel d1)) PX PY -> Rabs PX <= 1000 -> Rabs PY <= 1000 -> sane_gnss (d_gnss d) ->
  forall evs' d2 o2, history d1 evs' = Ok (d2, o2) -> nothing_said d1 evs' -> t_orient (d_tel d2) = t_orient (d_tel d1) ->
  forall ev d3 o3 b, step d2 (Pass ev) = Ok (d3, o3) -> In (TcpOut b) o3 -> length b = 24%nat -> sane_gnss (d_gnss d3) -> g_latitude (d_gnss d3) = g_latitude (d_gnss d) ->
  exists (S S' : R) v1 v2, is_double (sidereal_in (d_gnss d)) S /\ is_double (sidereal_in (d_gnss d3)) S' /\ b = current_position 0 v1 v2 /\
    says_star (bpow radix2 (-27)) (2 / 10 ^ 7) (16 / 10 ^ 7) (fun _ => 1) v1 v2 w1 w2 (S' - S).
Proof.
  intros Hq HT evs d o Hh Hno e us w1 w2 d1 o1 Hw1 Hw2 Ha E PX PY Mp Bp1 Bp2 Hg evs' d2 o2 E' Hn Ho ev d3 o3 b E2 Hb Lb Hg2 Elat.
  assert (Sz : sized NumSF d) by (eapply history_summary; [exact Hh|split; reflexivity]).
  assert (Hh1 : exists o1', history boot (evs ++ [Pass e]) = Ok (d1, o1')).
  { eexists. rewrite history_app, Hh. cbn [bind M_Main.history]. rewrite E. cbn [bind]. reflexivity. }
  destruct Hh1 as [o1' Hh1].
  assert (Hh2 : exists o2', history boot ((evs ++ [Pass e]) ++ evs') = Ok (d2, o2')).
  { eexists. rewrite history_app, Hh1. cbn [bind]. rewrite E'. cbn [bind]. reflexivity. }
  destruct Hh2 as [o2' Hh2].
  destruct (C166_every_star_is_told T pf lc qsort x j ftext left_first cfg Hq HT _ _ _ Hh2) as (cs' & Hc' & K).
  destruct (commands_app _ _ _ _ _ _ Hh1 Hc') as (cs'' & cse & Hc & Hce & ->). rewrite (Hn _ Hce), app_nil_r in *. clear Hc' Hce cse.
  destruct (goto_grows _ _ _ _ _ _ _ _ _ Hh Sz Hw1 Hw2 Ha E _ Hc) as (cs & r & dc & C1 & -> & Mr & Md). clear Hc. destruct (Hno _ C1) as [Hm1 Hs1].
  pose proof (word_angle w1 Hw1) as B1. pose proof (word_angle w2 Hw2) as B2.
  assert (Hs : synchronised (cs ++ [Sync (t_orient (d_tel d1)) r dc (d_gnss d)]) [] = [t_orient (d_tel d1)]) by (rewrite synchronised_app, Hs1; reflexivity).
  assert (Hm : at_most 63 (cs ++ [Sync (t_orient (d_tel d1)) r dc (d_gnss d)])).
  { intros k. rewrite firstn_app. destruct (Nat.le_gt_cases k (length cs)) as [Lk|Lk].
    - replace (k - length cs)%nat with O by lia. rewrite app_nil_r. apply Hm1.
    - rewrite firstn_all2 by lia. destruct (k - length cs)%nat as [|n] eqn:En; [lia|]. cbn [firstn]. rewrite firstn_nil, Hs. cbn. lia. }
  destruct (K Hm (t_orient (d_tel d1)) r dc (d_gnss d)) with (PX := PX) (PY := PY) (R0 := IZR w1 * unit_deg) (D := IZR w2 * unit_deg) as (S & MS & Q & _); try assumption; try (apply Rabs_le; lra).
  - exists cs, []. split; [reflexivity|]. split; [intros []|]. rewrite Hs1. reflexivity.
  - destruct (Q _ _ _ _ E2 Hb Lb Hg2 Elat) as (S' & v1 & v2 & MS' & Eb & Tl). exists S, S', v1, v2. split; [exact MS|]. split; [exact MS'|]. split; [exact Eb|]. apply tell_says; assumption.
Qed.
(** A further star, whatever their number, when they resolve the sky. *)
Theorem C173_further_star_by_goto : permuting NumSF qsort -> c_libm T -> forall evs d o, history boot evs = Ok (d, o) ->
  forall e us w1 w2 d1 o1, word w1 -> word w2 -> goto_arrives d e us w1 w2 -> step d (Pass e) = Ok (d1, o1) ->
  forall evs' d2 o2, history d1 evs' = Ok (d2, o2) -> nothing_said d1 evs' -> t_orient (d_tel d2) = t_orient (d_tel d1) ->
  exists cs r dc, commands boot evs cs /\ is_double r (IZR w1 * unit_deg) /\ is_double dc (IZR w2 * unit_deg) /\
    let cs' := cs ++ [Sync (t_orient (d_tel d1)) r dc (d_gnss d)] in
    (at_most 63 cs' -> sensible_doubles cs' -> existsb (fun q => same NumSF q (t_orient (d_tel d1))) (synchronised cs []) = false ->
     forall X H f : R, is_double x X -> 1 <= H -> Rabs X <= H -> f <= / 1100 -> resolves_doubles H f cs' (t_align (d_tel d2)) ->
     forall ev d3 o3 b, step d2 (Pass ev) = Ok (d3, o3) -> In (TcpOut b) o3 -> length b = 24%nat -> sane_gnss (d_gnss d3) -> g_latitude (d_gnss d3) = g_latitude (d_gnss d) ->
     exists (S S' : R) v1 v2, is_double (sidereal_in (d_gnss d)) S /\ is_double (sidereal_in (d_gnss d3)) S' /\ b = current_position 0 v1 v2 /\
       says_star (4 * f + bpow radix2 (-27)) (3 / 2 * f + 1 / 10 ^ 7) (3 / 2 * f + 1 / 10 ^ 7) (fun D => cos (radians D)) v1 v2 w1 w2 (S' - S)).
Proof.
  intros Hq HT evs d o Hh e us w1 w2 d1 o1 Hw1 Hw2 Ha E evs' d2 o2 E' Hn Ho.
  assert (Sz : sized NumSF d) by (eapply history_summary; [exact Hh|split; reflexivity]).
  assert (Hh1 : exists o1', history boot (evs ++ [Pass e]) = Ok (d1, o1')).
  { eexists. rewrite history_app, Hh. cbn [bind M_Main.history]. rewrite E. cbn [bind]. reflexivity. }
  destruct Hh1 as [o1' Hh1].
  assert (Hh2 : exists o2', history boot ((evs ++ [Pass e]) ++ evs') = Ok (d2, o2')).
  { eexists. rewrite history_app, Hh1. cbn [bind]. rewrite E'. cbn [bind]. reflexivity. }
  destruct Hh2 as [o2' Hh2].
  destruct (C167_every_star_is_told T pf lc qsort x j ftext left_first cfg Hq HT _ _ _ Hh2) as (cs' & Hc' & K).
  destruct (commands_app _ _ _ _ _ _ Hh1 Hc') as (cs'' & cse & Hc & Hce & ->). rewrite (Hn _ Hce), app_nil_r in *. clear Hc' Hce cse.
  destruct (goto_grows _ _ _ _ _ _ _ _ _ Hh Sz Hw1 Hw2 Ha E _ Hc) as (cs & r & dc & C1 & -> & Mr & Md). clear Hc.
  exists cs, r, dc. split; [exact C1|]. split; [exact Mr|]. split; [exact Md|]. cbv zeta. intros Hm Hs Hnew X H f Mx H1 HX Hf Hres ev d3 o3 b E2 Hb Lb Hg2 Elat.
  destruct (K Hm Hs X H f Mx H1 HX Hf Hres (t_orient (d_tel d1)) r dc (d_gnss d)) with (R0 := IZR w1 * unit_deg) (D := IZR w2 * unit_deg) as (S & MS & Q & _); try assumption.
  - exists cs, []. split; [reflexivity|]. split; [intros []|]. exact Hnew.
  - destruct (Q _ _ _ _ E2 Hb Lb Hg2 Elat) as (S' & v1 & v2 & MS' & Eb & Tl). exists S, S', v1, v2. split; [exact MS|]. split; [exact MS'|]. split; [exact Eb|]. apply tell_says; assumption.
Qed.
End Device.
Print Assumptions C173_first_star_by_goto.
Print Assumptions C173_further_star_by_goto.

(** Non-vacuity: a client connects, a GNSS sentence arrives, the client names the star (right ascension 90, declination 45), two more
    passes, then one in which a position message is sent (trigonometric functions constant). *)
From Verif Require Import P_AlignWitness Properties_Publish Properties_Device2 Properties_Device5.
Definition calm (t : Z) (tcp pending serial : list Z) : env NumSF := env_at NumSF t (Some tcp) [] pending serial.
Definition before_goto : list (event NumSF) := [Pass (calm 1000000 [] [] []); Pass (calm 1000001 [] [] []); Pass (calm 1000002 [] [7%Z] []); Pass (calm 1000003 [] [] gsv); Pass (calm 1110010 [] [] []); Pass (calm 1110011 [] [] [])].
Definition goto_pass : env NumSF := calm 1110012 (goto_message 0 0x40000000 0x20000000) [] [].
Definition after_goto : list (event NumSF) := [Pass (calm 1510010 [] [] []); Pass (calm 1510011 [] [] []); Pass (calm 1510012 [] [] [])].
Definition message_pass : env NumSF := calm 1510013 [] [] [].
Notation cfg0 := (Config true true false false).
Definition hist3 := M_Main.history NumSF T0 esp32 wrap_u32 lcSF (insertion_sort NumSF) (Ok (P_AlignWitness.fz 0)) (Some (P_AlignWitness.fz 0, P_AlignWitness.fz 0)) ft0 true cfg0.
Definition step3 := M_Main.step NumSF T0 esp32 wrap_u32 lcSF (insertion_sort NumSF) (Ok (P_AlignWitness.fz 0)) (Some (P_AlignWitness.fz 0, P_AlignWitness.fz 0)) ft0 true cfg0.
Definition commands3 := P_Device2.commands NumSF T0 esp32 wrap_u32 lcSF (insertion_sort NumSF) (Ok (P_AlignWitness.fz 0)) (Some (P_AlignWitness.fz 0, P_AlignWitness.fz 0)) ft0 true cfg0.
(** a pass that reads no bytes from the client and no MQTT message says nothing *)
Lemma calm_pass d t pending serial d' c : commands_of NumSF cfg0 d (Pass (calm t [] pending serial)) d' c -> c = [].
Proof.
  intros H. unfold commands_of in H. match type of H with match ?t with _ => _ end => destruct t end; try exact H. destruct H as (s & -> & H).
  replace (received NumSF (calm t [] pending serial)) with 0%Z in H by reflexivity. rewrite Z.ltb_irrefl, andb_false_r in H. rewrite H.
  unfold P_Device2.resets. cbn [calm env_at e_msgs existsb]. rewrite andb_false_r. reflexivity.
Qed.
Lemma calm_passes evs : Forall (fun ev => exists t p s, ev = Pass (calm t [] p s)) evs -> forall d cs, commands3 d evs cs -> cs = [].
Proof.
  induction 1 as [|ev evs (t & p & s & ->) H IH]; intros d cs Hc.
  - inversion Hc. reflexivity.
  - inversion Hc as [|? ? d' o ? c cs' Es Hco Hcs]; subst. apply calm_pass in Hco. subst c. apply IH in Hcs. subst cs'. reflexivity.
Qed.
Definition tube_now (d : dev NumSF) : spec_float * spec_float := (px (t_orient (d_tel d)), py (t_orient (d_tel d))).
Definition place_of (d : dev NumSF) : spec_float * spec_float * tm := (g_latitude (d_gnss d), g_longitude (d_gnss d), g_time (d_gnss d)).
Definition told : option (task * option Z * bool * (spec_float * spec_float) * (spec_float * spec_float) * (spec_float * spec_float * tm) * list nat) :=
  match hist3 (M_Main.boot NumSF) before_goto with
  | Ok (d, _) => match step3 d (Pass goto_pass) with
    | Ok (d1, _) => match hist3 d1 after_goto with
      | Ok (d2, _) => match step3 d2 (Pass message_pass) with
        | Ok (d3, o3) => Some (the_task NumSF d goto_pass, d_client d, bytes_okb (d_rx d), tube_now d1, tube_now d2, place_of d3, map (@length Z) (tcp_bytes o3))
        | UB _ => None end
      | UB _ => None end
    | UB _ => None end
  | UB _ => None
  end.
Example C173_nonvacuous : told = Some (Task100ms, Some 7%Z, true, (S754_finite false 6333186975989760 (-45), S754_zero false), (S754_finite false 6333186975989760 (-45), S754_zero false),
    (P_AlignWitness.fz 48, P_AlignWitness.fz 11, Tm 0 0 0 0 0 0), [24%nat]) /\
  (forall cs, commands3 (M_Main.boot NumSF) before_goto cs -> at_most 63 cs /\ synchronised cs [] = []) /\ (forall d cs, commands3 d after_goto cs -> cs = []) /\
  P_Device2.resets NumSF cfg0 goto_pass = false /\ word 0x40000000 /\ word 0x20000000.
Proof.
  split; [vm_compute; reflexivity|]. split; [|split; [|split; [reflexivity|split; red; lia]]].
  - intros cs Hc. apply calm_passes in Hc; [subst cs; split; [intros [|k]; cbn; lia|reflexivity]|]. repeat (constructor; [do 3 eexists; reflexivity|]). constructor.
  - intros d cs Hc. apply calm_passes in Hc; [exact Hc|]. repeat (constructor; [do 3 eexists; reflexivity|]). constructor.
Qed.
