(** alignment.cpp:472-514 nearestTriangle with every operation rounded (NumB): the loop keeps the first triangle whose computed
    distance is smallest; the computed distance against the exact one. *)
From Verif Require Import Base Num M_Linalg M_Helper M_Alignment S_Alignment P_Alignment P_AlignState P_AlignState2 P_Round P_Helper2 P_LinIEEE2 P_TriIEEE P_Finite.
From Coq Require Import Reals Lra Lia.
From Flocq Require Import Core.
Open Scope R_scope.
Notation length := List.length.

Lemma nearest_loop_B vs p n : (Z.of_nat (length vs) >= n)%Z -> forall ts i best idx,
  Forall (three_of n) ts ->
  exists k, nearest_loop NumB vs p ts i best idx = Ok k /\
    ((k = idx /\ (forall t d, In t ts -> dist_to NumB vs p t d -> exists m, best = Some m /\ (m <= d)%R)) \/
     exists j t d, k = (i + Z.of_nat j)%Z /\ nth_error ts j = Some t /\ dist_to NumB vs p t d /\
       (forall m, best = Some m -> (d < m)%R) /\
       (forall t' d', In t' ts -> dist_to NumB vs p t' d' -> (d <= d')%R)).
Proof.
  intros Hl. induction ts as [|t ts IH]; intros i best idx Ht; cbn [nearest_loop].
  - exists idx. split; [reflexivity|]. left. split; [reflexivity|]. intros t d [].
  - inversion Ht; subst. destruct (three_of_rd NumB n vs t Hl H1) as (a & b & c & Ea & Eb & Ec).
    rewrite Ea, Eb, Ec. cbn [bind]. set (d0 := centroid_distance NumB p (actual a) (actual b) (actual c)).
    assert (Hd0 : forall d, dist_to NumB vs p t d <-> d = d0).
    { intros d. split.
      - intros (a' & b' & c' & Ea' & Eb' & Ec' & ->). rewrite Ea in Ea'. rewrite Eb in Eb'. rewrite Ec in Ec'.
        injection Ea' as <-. injection Eb' as <-. injection Ec' as <-. reflexivity.
      - intros ->. exists a, b, c. auto. }
    clearbody d0.
    assert (Hcase : (match best with None => flt_inf NumB d0 | Some m => flt NumB d0 m end) = true /\
                      (forall m, best = Some m -> (d0 < m)%R) \/
                    (match best with None => flt_inf NumB d0 | Some m => flt NumB d0 m end) = false /\
                      exists m, best = Some m /\ (m <= d0)%R).
    { destruct best as [m|]; cbn.
      - destruct (Rlt_bool_spec d0 m); [left; split; [reflexivity|intros m' E; injection E as <-; assumption]|right; split; [reflexivity|eauto]].
      - left. split; [reflexivity|discriminate]. }
    destruct Hcase as [[E Hm]|[E (m & Em & Hm)]]; rewrite E.
    + destruct (IH (i + 1)%Z (Some d0) i H2) as (k & Ek & [(-> & Hall)|(j & t' & d' & -> & Hn & Hd & Hb & Hall)]).
      * exists i. split; [exact Ek|]. right. exists 0%nat, t, d0. split; [lia|]. split; [reflexivity|].
        split; [apply Hd0; reflexivity|]. split; [exact Hm|].
        intros t' d' [<-|Hin] Hd'; [apply Hd0 in Hd'; lra|].
        destruct (Hall t' d' Hin Hd') as (m' & E' & Hle). injection E' as <-. exact Hle.
      * exists (i + 1 + Z.of_nat j)%Z. split; [exact Ek|]. right. exists (S j), t', d'. split; [lia|].
        split; [exact Hn|]. split; [exact Hd|]. specialize (Hb d0 eq_refl). split.
        { intros m Em. specialize (Hm m Em). lra. }
        intros t'' d'' [<-|Hin] Hd''; [apply Hd0 in Hd''; lra|eauto].
    + destruct (IH (i + 1)%Z best idx H2) as (k & Ek & [(-> & Hall)|(j & t' & d' & -> & Hn & Hd & Hb & Hall)]).
      * exists idx. split; [exact Ek|]. left. split; [reflexivity|].
        intros t' d' [<-|Hin] Hd'; [apply Hd0 in Hd'; subst; eauto|eauto].
      * exists (i + 1 + Z.of_nat j)%Z. split; [exact Ek|]. right. exists (S j), t', d'. split; [lia|].
        split; [exact Hn|]. split; [exact Hd|]. split; [exact Hb|].
        intros t'' d'' [<-|Hin] Hd''; [apply Hd0 in Hd''; specialize (Hb m Em); lra|eauto].
Qed.

Lemma nearestTriangle_B (a : align NumB) p : WF NumB a -> tris a <> [] ->
  exists k t d, nearestTriangle NumB a p = Ok (Z.of_nat k) /\ nth_error (tris a) k = Some t /\
    dist_to NumB (verts a) p t d /\
    (forall t' d', In t' (tris a) -> dist_to NumB (verts a) p t' d' -> (d <= d')%R).
Proof.
  intros (H1 & H2 & H3 & H4 & H5) Hne. unfold nearestTriangle.
  destruct (nearest_loop_B (verts a) p 64 ltac:(lia) (tris a) 0%Z None (-1)%Z H4)
    as (k & Ek & [(-> & Hall)|(j & t & d & -> & Hn & Hd & _ & Hall)]).
  - exfalso. destruct (tris a) as [|t l] eqn:E; [contradiction|]. inversion H4; subst.
    destruct (three_of_rd NumB 64 (verts a) t ltac:(lia) H6) as (x & y & z & Ex & Ey & Ez).
    destruct (Hall t _ (or_introl eq_refl) ltac:(exists x, y, z; eauto)) as (m & Em & _). discriminate.
  - exists j, t, d. rewrite Ek, Z.add_0_l. auto.
Qed.

(** the triangle used outside all triangles is the nearest: squared distance of the centroid, in degrees *)
Definition centroid_dist (p u v w : point NumB) : R :=
  (((px u : R) + px v + px w) / 3 - px p) ^ 2 + (((py u : R) + py v + py w) / 3 - py p) ^ 2.
Lemma third_B (a b c : R) : Rabs a <= 1000 -> Rabs b <= 1000 -> Rabs c <= 1000 ->
  Rabs (fdiv NumB (fadd NumB (fadd NumB a b) c) (fZ NumB 3) - (a + b + c) / 3) <= 1 / 10 ^ 12.
Proof.
  intros Ha Hb Hc. rewrite fZB by lia. cbn [fadd fdiv NumB]. apply Rabs_le_inv in Ha, Hb, Hc.
  step 11%Z (a + b) H1. step 12%Z (y + c) H2. step 11%Z (y0 / 3) H3. apply Rabs_le. lra.
Qed.
Lemma square_B (m p M : R) : Rabs (m - M) <= 1 / 10 ^ 12 -> Rabs M <= 1000 -> Rabs p <= 1000 ->
  Rabs (fmul NumB (fsub NumB m p) (fsub NumB m p) - (M - p) ^ 2) <= 1 / 10 ^ 8.
Proof.
  intros Hm HM Hp. cbn [fsub fmul NumB]. apply Rabs_le_inv in Hm, HM, Hp.
  step 11%Z (m - p) H1. set (D := M - p). assert (HD : - 2000 <= D <= 2000) by (unfold D; lra).
  assert (Hy : - (15 / 10 ^ 13) <= y - D <= 15 / 10 ^ 13) by (unfold D; lra). clearbody D. clear H1 Hm HM Hp.
  assert (Q : Rabs (y * y - D ^ 2) <= 7 / 10 ^ 9).
  { replace (y * y - D ^ 2) with ((y - D) * (y + D)) by ring.
    assert (A : Rabs (y - D) <= 15 / 10 ^ 13) by (apply Rabs_le; lra). assert (B : Rabs (y + D) <= 4001) by (apply Rabs_le; lra).
    pose proof (P_LinIEEE2.Rabs_mul_le _ _ _ _ A B). lra. }
  assert (D2 : D ^ 2 <= 4000000). { assert (0 <= (2000 - D) * (2000 + D)) by (apply Rmult_le_pos; lra). lra. }
  pose proof (pow2_ge_0 D) as D0. apply Rabs_le_inv in Q.
  step 22%Z (y * y) H2. apply Rabs_le. lra.
Qed.
Lemma centroid_B (p a b c : point NumB) : Rabs (px p : R) <= 1000 -> Rabs (py p : R) <= 1000 -> Rabs (px a : R) <= 1000 -> Rabs (py a : R) <= 1000 ->
  Rabs (px b : R) <= 1000 -> Rabs (py b : R) <= 1000 -> Rabs (px c : R) <= 1000 -> Rabs (py c : R) <= 1000 ->
  Rabs (centroid_distance NumB p a b c - centroid_dist p a b c) <= centroid_dist p a b c / 8000000 + 1 / 10 ^ 7.
Proof.
  intros P0 P1 A0 A1 B0 B1 C0 C1. unfold centroid_distance. cbv zeta.
  pose proof (third_B _ _ _ A0 B0 C0) as T0. pose proof (third_B _ _ _ A1 B1 C1) as T1.
  assert (M0 : Rabs (((px a : R) + px b + px c) / 3) <= 1000) by (apply Rabs_le_inv in A0, B0, C0; apply Rabs_le; change (F NumB) with R in *; lra).
  assert (M1 : Rabs (((py a : R) + py b + py c) / 3) <= 1000) by (apply Rabs_le_inv in A1, B1, C1; apply Rabs_le; change (F NumB) with R in *; lra).
  pose proof (square_B _ _ _ T0 M0 P0) as S0. pose proof (square_B _ _ _ T1 M1 P1) as S1. unfold centroid_dist.
  set (D0 := (((px a : R) + px b + px c) / 3 - px p) ^ 2) in *. set (D1 := (((py a : R) + py b + py c) / 3 - py p) ^ 2) in *.
  assert (N0 : 0 <= D0 <= 4000000).
  { unfold D0. split; [apply pow2_ge_0|]. set (d := _ / 3 - _). assert (- 2000 <= d <= 2000) by (unfold d; apply Rabs_le_inv in M0, P0; change (F NumB) with R in *; lra). clearbody d.
    assert (0 <= (2000 - d) * (2000 + d)) by (apply Rmult_le_pos; lra). lra. }
  assert (N1 : 0 <= D1 <= 4000000).
  { unfold D1. split; [apply pow2_ge_0|]. set (d := _ / 3 - _). assert (- 2000 <= d <= 2000) by (unfold d; apply Rabs_le_inv in M1, P1; change (F NumB) with R in *; lra). clearbody d.
    assert (0 <= (2000 - d) * (2000 + d)) by (apply Rmult_le_pos; lra). lra. }
  clearbody D0 D1. clear T0 T1 M0 M1. revert S0 S1. 
  match goal with |- Rabs (?m - _) <= _ -> Rabs (?n - _) <= _ -> _ => generalize m, n end. intros x y S0 S1.
  change (f32 NumB (fadd NumB x y)) with (b32 (b64 (x + y))). change (F NumB) with R in *. apply Rabs_le_inv in S0, S1.
  step 23%Z (x + y) H. pose proof (b32_rel y0) as K. assert (Rabs y0 <= D0 + D1 + 3 / 10 ^ 8) by (apply Rabs_le; lra). apply Rabs_le_inv in K. apply Rabs_le. lra.
Qed.
