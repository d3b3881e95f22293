(** C147: what a Stellarium client is sent after any number of stars, with the tube at one of them, from power-on to
    the bytes on the wire (exact arithmetic, any history). *)
From Verif Require Import Base Num M_Libc P_Libc M_Checkbits M_Linalg M_Helper M_Alignment S_Alignment P_Alignment P_AlignState P_AlignState2 P_AlignR M_Telescope S_Sky P_Sky M_Stellarium S_Stellarium P_Stellarium P_Stellarium2 M_Gnss M_NexStar S_NexStar P_NexStar M_Led M_Imu P_Imu M_Main P_Sched P_Main P_Main2 P_Device S_Device P_Device2 P_Device3 S_Safe Properties_Alignment Properties_Sky Properties_NexStar Properties_NexStar2 Properties_Stellarium Properties_Main3 Properties_Device3 Properties_Device4 S_Delaunay Properties_Device7.
From Coq Require Import Permutation Reals Lra.
From Flocq Require Import Core.
Open Scope R_scope.
Notation length := List.length.

(** the declination word is a signed number *)
Definition signed_word (w : Z) : Z := if (w <? 2147483648)%Z then w else (w - 4294967296)%Z.
(** the message says: right ascension [s] (up to whole turns) and declination [dc], both to the nearest unit *)
Definition says (s dc : R) (b : list Z) : Prop := exists w1 w2, b = current_position 0 w1 w2 /\ (0 <= w1 < 2 ^ 32)%Z /\ (0 <= w2 < 2 ^ 32)%Z /\
  (exists k, Rabs (IZR w1 * unit_deg + 360 * IZR k - s) <= unit_deg / 2) /\ Rabs (IZR (signed_word w2) * unit_deg - dc) <= unit_deg / 2.

Section Device.
Context (pf : platform) (oor : conv_policy) (lc : libc NumR) (qsort : list (vpair NumR) -> list (vpair NumR)) (x : F NumR) (j : F NumR * F NumR).
Context (ftext : nat -> F NumR -> list Z) (left_first : bool) (cfg : config).
Notation step := (M_Main.step NumR TrigR pf oor lc qsort (Ok x) (Some j) ftext left_first cfg).
Notation history := (history NumR TrigR pf oor lc qsort (Ok x) (Some j) ftext left_first cfg).
Notation boot := (boot NumR).
Notation commands := (commands NumR TrigR pf oor lc qsort (Ok x) (Some j) ftext left_first cfg).

Lemma decode_unit n : decode_expr NumR n = IZR n * unit_deg.
Proof. unfold decode_expr, unit_deg. cbn [fmul fdiv fZ NumR]. change (F NumR) with R. field. Qed.
Lemma signed_near w k v : (0 <= w < 2 ^ 32)%Z -> -90 <= v <= 90 -> Rabs (IZR w * unit_deg + 360 * IZR k - v) <= unit_deg / 2 ->
  Rabs (IZR (signed_word w) * unit_deg - v) <= unit_deg / 2.
Proof.
  intros Hw Hv H. pose proof (Rabs_def2_le := Rabs_le_inv _ _ H). clear H. rename Rabs_def2_le into H.
  assert (Hw1 : (0 <= w <= 4294967295)%Z) by lia. destruct Hw1 as [W0 W1]. apply IZR_le in W0, W1.
  assert (Kb : -1 <= IZR k <= 0 \/ True) by (right; exact I). clear Kb.
  assert (Hk : (-1 <= k <= 0)%Z).
  { split.
    - assert (L : -2 < IZR k) by (unfold unit_deg in H; lra). apply lt_IZR in L. lia.
    - assert (L : IZR k < 1) by (unfold unit_deg in H; lra). apply lt_IZR in L. lia. }
  unfold signed_word. destruct (Z.ltb_spec w 2147483648) as [L|L].
  - assert (k = 0)%Z as ->. { assert (K : (k = 0 \/ k = -1)%Z) by lia. destruct K as [-> | ->]; [reflexivity|exfalso]. assert (L' : (w <= 2147483647)%Z) by lia. apply IZR_le in L'. unfold unit_deg in H. lra. }
    apply Rabs_le. unfold unit_deg in *. lra.
  - assert (k = -1)%Z as ->. { assert (K : (k = 0 \/ k = -1)%Z) by lia. destruct K as [-> | ->]; [exfalso|reflexivity]. apply IZR_le in L. unfold unit_deg in H. lra. }
    rewrite minus_IZR. apply Rabs_le. unfold unit_deg in *. lra.
Qed.

(** The tube stands where the star (r, dc) was synchronised (one star, two, three with a triangle, or any number when the
    star is a corner of the triangles around it): a position message sent then carries the star's declination and its
    right ascension plus the sidereal time elapsed. *)
Theorem C147_stellarium_told_the_star : permuting NumR qsort -> forall evs d o, history boot evs = Ok (d, o) ->
  exists cs, commands boot evs cs /\ (at_most 63 cs -> forall p r dc g, first_named cs p r dc g -> resolved cs (t_align (d_tel d)) p ->
    t_orient (d_tel d) = p -> -90 < dc < 90 ->
    forall e d' o' b, step d (Pass e) = Ok (d', o') -> In (TcpOut b) o' -> length b = 24%nat -> latitude (d_gnss d') = latitude g ->
    forall s, 0 <= s < 360 -> same_turn s (r + (sidereal (d_gnss d') - sidereal g)) ->
    0 <= dc /\ s < 360 - unit_deg / 2 \/ oor = wrap_u32 -> says s dc b).
Proof.
  intros Hq evs d o H. destruct (position_at_star pf oor lc qsort x j ftext left_first cfg Hq evs d o H) as (cs & Hc & K).
  exists cs. split; [exact Hc|]. intros Hm p r dc g Hf Hs HA Hdc e d' o' b E Hb Lb Hlat s Hs1 Hs2 Hpl.
  assert (Sz : sized NumR d) by (eapply history_summary; [exact H|split; reflexivity]).
  cbn [M_Main.step] in E. destruct (C96_position_messages NumR TrigR pf oor lc qsort (Ok x) (Some j) ftext left_first cfg _ _ _ _ _ E Sz Hb Lb) as (_ & _ & _ & _ & _ & q & ty & Eq & buf & Ep & ->).
  destruct (K Hm p r dc g Hf Hs (d_tel d) eq_refl HA (sidereal (d_gnss d'))) as (q' & ty' & Eq' & _ & Hd & Ht & B).
  rewrite <- Hlat in Eq'. unfold latitude, sidereal in Eq'. rewrite Eq in Eq'. injection Eq' as <- <-.
  specialize (Hd ltac:(lra)). specialize (Ht ltac:(lra)).
  assert (Es : RA q = s).
  { apply (same_turn_norm (RA q) s); [|exact B|exact Hs1]. destruct Ht as [k Ek], Hs2 as [k' Ek']. exists (k - k')%Z. rewrite minus_IZR. lra. }
  destruct Sz as [Lt _].
  destruct (C04_layout_and_frame NumR oor (ra q) (dec q) 0 (d_tx d) 256 24 buf) as (_ & w1 & w2 & E1 & E2 & ->); [rewrite Lt; lia|lia|exact Ep|].
  change (ra q) with (RA q) in E1. change (dec q) with (DEC q) in E2. rewrite Es in E1. rewrite Hd in E2.
  assert (G : ((0 <= w1 < 2 ^ 32)%Z /\ exists k, Rabs (IZR w1 * unit_deg + 360 * IZR k - s) <= unit_deg / 2) /\
              ((0 <= w2 < 2 ^ 32)%Z /\ exists k, Rabs (IZR w2 * unit_deg + 360 * IZR k - dc) <= unit_deg / 2)).
  { destruct Hpl as [[P1 P2]|Hw].
    - destruct (C06_value_roundtrip_exact_reals oor s) as (n1 & F1 & R1 & A1); [lra|].
      destruct (C06_value_roundtrip_exact_reals oor dc) as (n2 & F2 & R2 & A2); [unfold unit_deg; lra|].
      rewrite F1 in E1. rewrite F2 in E2. injection E1 as ->. injection E2 as ->. rewrite decode_unit in A1, A2.
      split; (split; [assumption|]; exists 0%Z; rewrite Rmult_0_r, Rplus_0_r; assumption).
    - rewrite Hw in E1, E2. destruct (C06_value_roundtrip_mod_360_when_wrapping s) as (n1 & k1 & F1 & R1 & A1).
      destruct (C06_value_roundtrip_mod_360_when_wrapping dc) as (n2 & k2 & F2 & R2 & A2).
      rewrite F1 in E1. rewrite F2 in E2. injection E1 as ->. injection E2 as ->. rewrite decode_unit in A1, A2.
      split; (split; [assumption|]; eexists; eassumption). }
  destruct G as [[R1 G1] [R2 (k & G2)]]. exists w1, w2. split.
  { rewrite firstn_app. replace (24 - length (current_position 0 w1 w2))%nat with O by reflexivity. rewrite app_nil_r. apply firstn_all2. cbn. lia. }
  split; [exact R1|]. split; [exact R2|]. split; [exact G1|]. apply (signed_near w2 k dc R2 ltac:(lra) G2).
Qed.
End Device.
(** Non-vacuity: after the three syncs of Properties_Device7Ex.v (C136_nonvacuous) the tube stands at the third star and all
    hypotheses on the history, the star and the orientation hold; position messages are sent as C96 says. *)
Print Assumptions C147_stellarium_told_the_star.
