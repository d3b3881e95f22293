(** One stored star: the correction in any arithmetic, and its rounding errors in IEEE double precision. *)
From Verif Require Import Base Num M_Linalg M_Helper M_Alignment S_Alignment P_Alignment P_AlignState P_AlignState2 P_AlignR M_Telescope S_Sky P_Sky P_Round P_Helper2 P_TriIEEE M_Gnss S_Device P_Device3 S_SkyIEEE P_SkyIEEE P_SkyIEEE2 Properties_Alignment.
From Coq Require Import Permutation Reals Lra Psatz.
From Flocq Require Import Core Relative.
Open Scope R_scope.
Notation length := List.length.

Lemma last_triangulate_any N qsort x j ops a : permuting N qsort -> reaches N qsort x j (ops ++ [Triangulate]) a ->
  exists a0, reaches N qsort x j ops a0 /\ WF N a0 /\ TriangulateActual N (Ok x) (Some j) a0 = Ok a /\
    stored a = stored a0 /\ numVertices a = numVertices a0.
Proof.
  intros Hq H. unfold reaches in H. rewrite run_app in H.
  destruct (run N qsort (Ok x) (Some j) (align_init N) ops) as [a0|u] eqn:E; [|discriminate].
  exists a0. assert (HW : WF N a0) by (eapply run_WF; eauto; apply WF_init).
  cbn [bind run step] in H. destruct (TriangulateActual N (Ok x) (Some j) a0) as [a1|u] eqn:E1; [|discriminate].
  cbn [bind] in H. injection H as ->. split; [exact E|]. split; [exact HW|]. split; [reflexivity|].
  destruct (triangulate_actual N x j a0 HW) as [(a' & E' & HW' & En & Es & _)|(_ & _ & E')]; rewrite E1 in E'; [|discriminate].
  injection E' as <-. auto.
Qed.

Lemma one_point_any N x j (a0 a : align N) v : WF N a0 -> TriangulateActual N (Ok x) (Some j) a0 = Ok a ->
  stored a0 = [v] -> forall p, getTransformationType N a p = Ok POINT /\ getTransformationMatrix N a p = Ok (translation N v).
Proof.
  intros HW E Hs p. destruct (triangulate_actual N x j a0 HW) as [(a' & E' & HW' & En & Es & Hpos & H0 & Hm)|(_ & _ & E')];
    rewrite E' in E; [|discriminate]. injection E as ->.
  pose proof (stored_length N a0 HW) as Hl. rewrite Hs in Hl. cbn [length] in Hl.
  assert (Hn : numVertices a0 = 1%Z) by lia.
  destruct Hpos as (Ht & _); [lia|].
  assert (Etr : tris a = []).
  { destruct (tris a) as [|t l]; [reflexivity|]. inversion Ht; subst. exfalso. eapply (no_three_of t 1); [lia|]. rewrite <- Hn. assumption. }
  rewrite <- Es in Hs.
  destruct (type_and_matrix N x a p HW' Hm) as (ty & m & Ety & Em & Hc).
  assert (Hty : ty = POINT /\ m = translation N v).
  { destruct ty.
    - destruct Hc as (Hc & _). congruence.
    - destruct Hc as (_ & v' & Hc & ->). rewrite Hs in Hc. injection Hc as <-. auto.
    - destruct Hc as (_ & v' & w' & r' & Hc & _). congruence.
    - destruct Hc as (Hc & _). congruence.
    - destruct Hc as (k & t & Hc & _). rewrite Etr in Hc. destruct k; discriminate. }
  destruct Hty as [-> ->]. split; [exact Ety|exact Em].
Qed.

(** ** rounding errors of the translation *)
Lemma shift_err (p c r : R) : Rabs p <= 1000 -> Rabs c <= 1000 -> Rabs r <= 1000 ->
  Rabs (b64 (b64 (b64 (1 * p) + b64 (0 * c)) + b64 (b64 (r - c) * 1)) - (p + (r - c))) <= bpow radix2 (-39).
Proof.
  intros Hp Hc Hr. apply Rabs_le_inv in Hp, Hc, Hr. rewrite Rmult_1_l, Rmult_0_l, Rmult_1_r.
  change 0 with (IZR 0) at 1. rewrite (b64_of_int 0) by lia. rewrite Rplus_0_r.
  rewrite (b64_id (b64 p)) by apply is_b64_round. rewrite (b64_id (b64 (r - c))) by apply is_b64_round.
  step 10%Z p H1. step 11%Z (r - c) H2. step 12%Z (y + y0) H3. apply Rabs_le. simpl bpow. lra.
Qed.
Lemma shift_err' (p q c r : R) : Rabs p <= 1000 -> Rabs q <= 1000 -> Rabs c <= 1000 -> Rabs r <= 1000 ->
  Rabs (b64 (b64 (b64 (0 * q) + b64 (1 * p)) + b64 (b64 (r - c) * 1)) - (p + (r - c))) <= bpow radix2 (-39).
Proof.
  intros Hp Hq Hc Hr. pose proof (shift_err p c r Hp Hc Hr) as E. rewrite Rmult_0_l in *. rewrite (Rplus_comm (b64 0)). exact E.
Qed.
Lemma translated (a : align NumB) (p : point NumB) (v : vpair NumB) : Rabs (px p : R) <= 1000 -> Rabs (py p : R) <= 1000 ->
  Rabs (px (actual v) : R) <= 1000 -> Rabs (py (actual v) : R) <= 1000 -> Rabs (px (reference v) : R) <= 1000 -> Rabs (py (reference v) : R) <= 1000 ->
  getTransformationMatrix NumB a p = Ok (translation NumB v) ->
  exists q (k : Z), getCalibratedOrientation NumB a p = Ok q /\
    Rabs ((px q : R) - ((px p : R) + ((px (reference v) : R) - (px (actual v) : R)) + 360 * IZR k)) <= bpow radix2 (-38) /\
    Rabs ((py q : R) - ((py p : R) + ((py (reference v) : R) - (py (actual v) : R)))) <= bpow radix2 (-38) /\
    Rabs (px q : R) <= 361 /\ Rabs (py q : R) <= 3001.
Proof.
  intros H1 H2 H3 H4 H5 H6 E. unfold getCalibratedOrientation. rewrite E. cbn [bind].
  unfold mvmul, dot3, translation. cbn [mset identity mget v0 v1 v2 m00 m01 m02 m10 m11 m12 px py fZ fadd fmul fsub NumB].
  change (F NumB) with R in *. change (px p : R) with (px p). rewrite (b64_of_int 1), (b64_of_int 0), (b64_of_int 360) by lia.
  set (u := b64 (b64 (b64 (1 * px p) + b64 (0 * py p)) + b64 (b64 (px (reference v) - px (actual v)) * 1))).
  set (w := b64 (b64 (b64 (0 * px p) + b64 (1 * py p)) + b64 (b64 (py (reference v) - py (actual v)) * 1))).
  assert (Eu : Rabs (u - (px p + (px (reference v) - px (actual v)))) <= bpow radix2 (-39)).
  { pose proof (shift_err (px p) (px (actual v)) (px (reference v)) H1 H3 H5) as Q. unfold u. rewrite Rmult_0_l in *. exact Q. }
  assert (Ew : Rabs (w - (py p + (py (reference v) - py (actual v)))) <= bpow radix2 (-39)).
  { unfold w. apply shift_err'; assumption. }
  clearbody u w. apply Rabs_le_inv in Eu, Ew, H1, H2, H3, H4, H5, H6.
  destruct (f_mod_B u) as (k & Ek & Br); [apply Rabs_le; simpl bpow in *; lra|].
  eexists _, k. split; [reflexivity|]. cbn [px py]. apply Rabs_le_inv in Ek. simpl bpow in *.
  split; [apply Rabs_le; lra|]. split; [apply Rabs_le; lra|]. split; apply Rabs_le; lra.
Qed.

(** a direction moves by at most the change of its angles *)
Lemma vec_lip a e a' e' f : Rabs (a - a') <= f -> Rabs (e - e') <= f -> f <= / 1000 -> near f (vec a e) (vec a' e').
Proof.
  intros Ha He Hf. assert (Hf0 : 0 <= f) by (pose proof (Rabs_pos (a - a')); lra).
  assert (Q : forall u u', Rabs (u - u') <= f -> Rabs (radians u - radians u') <= f / 40).
  { intros u u' Hu. unfold radians. replace (u * PI / 180 - u' * PI / 180) with ((u - u') * (PI / 180)) by field.
    rewrite Rabs_mult, (Rabs_pos_eq (PI / 180)) by (pose proof PI_lo; lra). pose proof PI_hi. pose proof PI_lo. pose proof (Rabs_pos (u - u')).
    apply Rle_trans with (f * (1 / 40)); [|lra]. apply Rmult_le_compat; lra. }
  pose proof (Q _ _ Ha) as Qa. pose proof (Q _ _ He) as Qe.
  pose proof (Rle_trans _ _ _ (cos_lip (radians a) (radians a')) Qa) as C1. pose proof (Rle_trans _ _ _ (sin_lip (radians a) (radians a')) Qa) as C2.
  pose proof (Rle_trans _ _ _ (cos_lip (radians e) (radians e')) Qe) as C3. pose proof (Rle_trans _ _ _ (sin_lip (radians e) (radians e')) Qe) as C4.
  apply near_le with (2 * (f / 40) + 2 * (f / 40)); [lra|]. apply (vec_near a e (radians a') (radians e')); try assumption; lra.
Qed.
(** the same closeness seen after turning by the sidereal time *)
Lemma turned l h d h' d' e : near e (vec h d) (vec h' d') -> near (2 * e) (vec (l - h) d) (vec (l - h') d').
Proof.
  unfold near, vec. intros (A & B & C). rewrite !radians_minus, !cos_minus, !sin_minus.
  set (c := cos (radians l)). set (s := sin (radians l)). assert (Hc : Rabs c <= 1) by apply cos_1. assert (Hs : Rabs s <= 1) by apply sin_1. clearbody c s.
  assert (M : forall u v, Rabs u <= 1 -> Rabs v <= e -> Rabs (u * v) <= e).
  { intros u v Hu Hv. pose proof (mul_le u v 1 e Hu Hv). lra. }
  set (x := cos (radians h) * cos (radians d)) in *. set (y := sin (radians h) * cos (radians d)) in *.
  set (x' := cos (radians h') * cos (radians d')) in *. set (y' := sin (radians h') * cos (radians d')) in *.
  replace ((c * cos (radians h) + s * sin (radians h)) * cos (radians d)) with (c * x + s * y) by (unfold x, y; ring).
  replace ((c * cos (radians h') + s * sin (radians h')) * cos (radians d')) with (c * x' + s * y') by (unfold x', y'; ring).
  replace ((s * cos (radians h) - c * sin (radians h)) * cos (radians d)) with (s * x - c * y) by (unfold x, y; ring).
  replace ((s * cos (radians h') - c * sin (radians h')) * cos (radians d')) with (s * x' - c * y') by (unfold x', y'; ring).
  split; [|split].
  - replace (c * x + s * y - (c * x' + s * y')) with (c * (x - x') + s * (y - y')) by ring. eapply Rle_trans; [apply Rabs_triang|]. pose proof (M c _ Hc A). pose proof (M s _ Hs B). lra.
  - replace (s * x - c * y - (s * x' - c * y')) with (s * (x - x') + (- c) * (y - y')) by ring. eapply Rle_trans; [apply Rabs_triang|].
    assert (Hc' : Rabs (- c) <= 1) by (rewrite Rabs_Ropp; exact Hc). pose proof (M s _ Hs A). pose proof (M (- c) _ Hc' B). lra.
  - pose proof (Rabs_pos (sin (radians d) - sin (radians d'))). lra.
Qed.
