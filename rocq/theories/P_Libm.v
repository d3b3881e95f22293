(** From a C library on doubles to one on rounded reals *)
From Verif Require Import Base Num M_Helper M_Telescope S_SkyIEEE P_SkyIEEE P_Round P_Helper2 P_NumCorr S_Libm Properties_SkyIEEE.
From Coq Require Import Reals Lra Lia Floats.SpecFloat.
From Flocq Require Import Core IEEE754.BinarySingleNaN.
Open Scope R_scope.

Lemma double_means s r : is_double s r <-> means s r.
Proof.
  split.
  - intros (V & Fi & E). exists (SF2B s V). rewrite B2SF_SF2B, is_finite_SF2B, B2R_SF2B. auto.
  - intros (f & <- & Ff & <-). split; [apply valid_binary_B2SF|]. split; [rewrite is_finite_SF_B2SF; exact Ff|apply SF2R_B2SF].
Qed.
Lemma means_SF2R s r : means s r -> SF2R radix2 s = r.
Proof. intros H. apply double_means in H. apply H. Qed.

(** the double of a representable real; [b] is the sign of zero *)
Definition sfo (b : bool) (x : R) : spec_float :=
  if Req_bool x 0 then S754_zero b else SpecFloat.binary_normalize 53 1024 (Ztrunc (scaled_mantissa radix2 exp64 x)) (cexp radix2 exp64 x) false.
Definition repr (x : R) : bool := Req_bool (b64 x) x && Rlt_bool (Rabs x) (bpow radix2 1024).
Lemma sfo_means b x : repr x = true -> means (sfo b x) x.
Proof.
  intros H. unfold repr in H. apply andb_prop in H. destruct H as [H1 H2]. unfold sfo. destruct (Req_bool_spec x 0) as [->|Hx]; [apply zero_means|].
  assert (E1 : b64 x = x) by (destruct (Req_bool_spec (b64 x) x); [assumption|discriminate]).
  assert (E2 : Rabs x < bpow radix2 1024) by (destruct (Rlt_bool_spec (Rabs x) (bpow radix2 1024)); [assumption|discriminate]).
  assert (G : is_b64 x). { rewrite <- E1. apply generic_format_round; [apply FLT_exp_valid; reflexivity|apply valid_rnd_N]. }
  rewrite normalize_equiv. eexists. split; [reflexivity|].
  pose proof (binary_normalize_correct 53 1024 Hprec Hmax mode_NE (Ztrunc (scaled_mantissa radix2 exp64 x)) (cexp radix2 exp64 x) false) as C. cbv zeta in C.
  rewrite <- G in C. assert (Rr : round radix2 (fexp 53 1024) (round_mode mode_NE) x = x) by exact E1. rewrite Rr, Rlt_bool_true in C by exact E2. destruct C as (C & D & _). auto.
Qed.
Lemma means_repr s x : means s x -> repr x = true.
Proof.
  intros M. unfold repr. rewrite P_NumCorr.b64_id by (eapply means_b64; exact M). rewrite Req_bool_true by reflexivity. rewrite Rlt_bool_true by (eapply means_bound; exact M). reflexivity.
Qed.
Lemma sfo_eq b s x : means s x -> x <> 0 -> sfo b x = s.
Proof. intros M H. eapply means_inj; [apply sfo_means; eapply means_repr; exact M|exact M|exact H]. Qed.
Lemma sfo_zero b : sfo b 0 = S754_zero b.
Proof. unfold sfo. rewrite Req_bool_true by reflexivity. reflexivity. Qed.

Section Lib.
Context (T : Trig NumSF) (HT : c_libm T) (b : bool).
Definition libB : Trig NumB := MkTrig NumB
  (fun x : R => if repr x then SF2R radix2 (tsin T (sfo false x)) else tsin rounding_libm x)
  (fun x : R => if repr x then SF2R radix2 (tcos T (sfo false x)) else tcos rounding_libm x)
  (fun y x : R => if repr y && repr x then SF2R radix2 (tatan2 T (sfo b y) (sfo false x)) else tatan2 rounding_libm y x)
  (SF2R radix2 (tpi T)).
Lemma libB_good : good_libm libB.
Proof.
  destruct HT as (Hs & Hc & Ha & Hp & _). destruct C148_nonvacuous as (Rs & Rc & Ra & _).
  unfold good_libm, libB. cbn [tsin tcos tatan2 tpi]. split; [|split; [|split]].
  - intros x Hx. destruct (repr x) eqn:E; [|exact (Rs x Hx)]. destruct (Hs (sfo false x) x) as (r & D & B); [apply double_means, sfo_means, E|exact Hx|]. destruct D as (_ & _ & ->). exact B.
  - intros x Hx. destruct (repr x) eqn:E; [|exact (Rc x Hx)]. destruct (Hc (sfo false x) x) as (r & D & B); [apply double_means, sfo_means, E|exact Hx|]. destruct D as (_ & _ & ->). exact B.
  - intros y x. destruct (repr y && repr x)%bool eqn:E; [|exact (Ra y x)]. apply andb_prop in E. destruct E as [E1 E2].
    destruct (Ha (sfo b y) (sfo false x) y x) as (r & k & D & B & K); [apply double_means, sfo_means, E1|apply double_means, sfo_means, E2|]. destruct D as (_ & _ & ->). split; [exact B|exists k; exact K].
  - destruct Hp as (r & (_ & _ & ->) & B). exact B.
Qed.
Lemma sin_agrees s x : means s x -> Rabs x <= 100 -> mb 1 (tsin T s) (tsin libB x).
Proof.
  intros M Hx. assert (K : means (tsin T s) (tsin libB x)).
  { destruct HT as (Hs & _ & _ & _ & Z & _). cbn [libB tsin]. rewrite (means_repr s x M). destruct (Req_dec x 0) as [->|N].
    - destruct (means_zero s M) as (s' & ->). rewrite sfo_zero. destruct (Hs (S754_zero false) 0) as (r & D & _); [apply double_means, zero_means|exact Hx|].
      rewrite (proj2 (proj2 D)). apply double_means. eapply Z; exact D.
    - rewrite (sfo_eq false s x M N). destruct (Hs s x) as (r & D & _); [apply double_means, M|exact Hx|]. rewrite (proj2 (proj2 D)). apply double_means, D. }
  split; [exact K|]. destruct (proj1 libB_good x Hx) as [|]; [|]; pose proof (proj1 libB_good x Hx) as B; pose proof (SIN_bound x); simpl bpow in *; apply Rabs_le_inv in B; apply Rabs_le; lra.
Qed.
Lemma cos_agrees s x : means s x -> Rabs x <= 100 -> mb 1 (tcos T s) (tcos libB x).
Proof.
  intros M Hx. assert (K : means (tcos T s) (tcos libB x)).
  { destruct HT as (_ & Hs & _ & _ & _ & Z & _). cbn [libB tcos]. rewrite (means_repr s x M). destruct (Req_dec x 0) as [->|N].
    - destruct (means_zero s M) as (s' & ->). rewrite sfo_zero. destruct (Hs (S754_zero false) 0) as (r & D & _); [apply double_means, zero_means|exact Hx|].
      rewrite (proj2 (proj2 D)). apply double_means. eapply Z; exact D.
    - rewrite (sfo_eq false s x M N). destruct (Hs s x) as (r & D & _); [apply double_means, M|exact Hx|]. rewrite (proj2 (proj2 D)). apply double_means, D. }
  split; [exact K|]. pose proof (proj1 (proj2 libB_good) x Hx) as B; pose proof (COS_bound x); simpl bpow in *; apply Rabs_le_inv in B; apply Rabs_le; lra.
Qed.
Lemma pi_agrees : means (tpi T) (tpi libB).
Proof. destruct HT as (_ & _ & _ & (r & D & _) & _). cbn [libB tpi]. rewrite (proj2 (proj2 D)). apply double_means, D. Qed.
Lemma pi_close : 2 <= tpi libB <= 8.
Proof. pose proof (proj2 (proj2 (proj2 libB_good))) as B. pose proof PI_4. pose proof PI2_3_2. simpl bpow in B. apply Rabs_le_inv in B. change (F NumB) with R in *. lra. Qed.
(** [atan2]: not both zero, or the second is not -0; a zero first argument has the sign [b] or stands with a second that is not negative *)
Lemma atan2_agrees a c y x : means a y -> means c x ->
  (y <> 0 \/ (x <> 0 /\ a = S754_zero b) \/ 0 < x \/ c = S754_zero false) -> mb 2 (tatan2 T a c) (tatan2 libB y x).
Proof.
  intros M1 M2 H. assert (K : means (tatan2 T a c) (tatan2 libB y x)).
  { destruct HT as (_ & _ & Ha & _ & _ & _ & Z1 & Z2). cbn [libB tatan2]. rewrite (means_repr _ _ M1), (means_repr _ _ M2). cbn [andb].
    destruct (Ha (sfo b y) (sfo false x) y x) as (r & k & D & _); [apply double_means, sfo_means; eapply means_repr; eassumption..|]. rewrite (proj2 (proj2 D)). apply double_means.
    destruct (Req_dec y 0) as [->|Ny].
    - destruct (means_zero a M1) as (sa & ->). rewrite sfo_zero in D. destruct (Req_dec x 0) as [->|Nx].
      + destruct H as [H|[[H _]|[H|H]]]; [contradiction|contradiction|lra|]. subst c. rewrite sfo_zero in D. eapply Z2; [apply double_means, zero_means|right; reflexivity|exact D].
      + rewrite (sfo_eq false c x M2 Nx) in D. destruct H as [H|[[_ H]|[H|H]]]; [contradiction|congruence| |].
        * eapply Z2; [apply double_means; exact M2|left; exact H|exact D].
        * exfalso. subst c. apply Nx. eapply means_unique; [exact M2|apply zero_means].
    - rewrite (sfo_eq b a y M1 Ny) in D. destruct (Req_dec x 0) as [->|Nx].
      + destruct (means_zero c M2) as (sc & ->). rewrite sfo_zero in D. eapply Z1; [apply double_means; exact M1|exact Ny|exact D].
      + rewrite (sfo_eq false c x M2 Nx) in D. exact D. }
  split; [exact K|]. simpl bpow. apply (proj1 (proj1 (proj2 (proj2 libB_good)) y x)).
Qed.
End Lib.
