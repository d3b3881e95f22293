(** The two IEEE instances agree: [NumSF] (executable binary64 with signed zeros, infinities and NaN) computes what [NumB] (rounded
    reals) computes, as long as no result reaches 2^1024.  Based on Flocq's BinarySingleNaN; the equations with the standard
    library's [SpecFloat] operations follow Flocq's PrimFloat.v, without primitive floats. *)
From Verif Require Import Base Num.
From Coq Require Import Reals Lra Lia Floats.SpecFloat.
From Flocq Require Import Core IEEE754.BinarySingleNaN.
Open Scope R_scope.

Notation prec := 53%Z.
Notation emax := 1024%Z.
Lemma Hprec : FLX.Prec_gt_0 prec. Proof. reflexivity. Qed.
Lemma Hmax : Prec_lt_emax prec emax. Proof. reflexivity. Qed.
#[local] Existing Instance Hprec.
#[local] Existing Instance Hmax.
Notation bf := (binary_float prec emax).
Notation B2R := (@BinarySingleNaN.B2R prec emax).
Notation B2SF := (@BinarySingleNaN.B2SF prec emax).

(** the double [s] is finite and its value is [r] *)
Definition means (s : spec_float) (r : R) : Prop := exists f : bf, B2SF f = s /\ is_finite f = true /\ B2R f = r.

Lemma rne_equiv s m l : round_nearest_even m l = choice_mode mode_NE s m l.
Proof. case l; [reflexivity|intro c]. case c; [|reflexivity..]. now simpl; unfold Round.cond_incr; case Z.even. Qed.
Lemma round_aux_equiv p e sx mx ex lx : SpecFloat.binary_round_aux p e sx mx ex lx = BinarySingleNaN.binary_round_aux p e mode_NE sx mx ex lx.
Proof.
  unfold SpecFloat.binary_round_aux, BinarySingleNaN.binary_round_aux. set (mrse' := shr_fexp _ _ _ _ _). case mrse'; intros mrs' e'; simpl.
  now rewrite (rne_equiv sx).
Qed.
Lemma round_equiv p e s m x : SpecFloat.binary_round p e s m x = BinarySingleNaN.binary_round p e mode_NE s m x.
Proof. unfold SpecFloat.binary_round, BinarySingleNaN.binary_round, shl_align_fexp. set (mez := shl_align _ _ _); case mez as [mz ez]. apply round_aux_equiv. Qed.
Lemma normalize_equiv m e szero : SpecFloat.binary_normalize prec emax m e szero = B2SF (BinarySingleNaN.binary_normalize prec emax Hprec Hmax mode_NE m e szero).
Proof.
  case m as [|p|p]; [reflexivity| |]; simpl; rewrite B2SF_SF2B; apply round_equiv.
Qed.
Lemma mul_equiv (x y : bf) : SFmul prec emax (B2SF x) (B2SF y) = B2SF (Bmult mode_NE x y).
Proof.
  case x as [sx|sx| |sx mx ex Bx]; case y as [sy|sy| |sy my ey By]; [now trivial.. |]. simpl. rewrite B2SF_SF2B. apply round_aux_equiv.
Qed.
Lemma add_equiv (x y : bf) : SFadd prec emax (B2SF x) (B2SF y) = B2SF (Bplus mode_NE x y).
Proof.
  case x as [sx|sx| |sx mx ex Bx]; case y as [sy|sy| |sy my ey By]; [now (trivial || simpl; case Bool.eqb).. |]. apply normalize_equiv.
Qed.
Lemma sub_equiv (x y : bf) : SFsub prec emax (B2SF x) (B2SF y) = B2SF (Bminus mode_NE x y).
Proof.
  case x as [sx|sx| |sx mx ex Bx]; case y as [sy|sy| |sy my ey By]; [now (trivial || simpl; case Bool.eqb).. |]. simpl. unfold Zminus. rewrite <- cond_Zopp_negb. apply normalize_equiv.
Qed.
Lemma div_equiv (x y : bf) : SFdiv prec emax (B2SF x) (B2SF y) = B2SF (Bdiv mode_NE x y).
Proof.
  case x as [sx|sx| |sx mx ex Bx]; case y as [sy|sy| |sy my ey By]; [now (trivial || simpl; case Bool.eqb).. |]. simpl. rewrite B2SF_SF2B.
  set (melz := SFdiv_core_binary _ _ _ _ _ _). case melz as [[mz ez] lz]. apply round_aux_equiv.
Qed.
Lemma sqrt_equiv (x : bf) : SFsqrt prec emax (B2SF x) = B2SF (Bsqrt mode_NE x).
Proof.
  case x as [sx|sx| |sx mx ex Bx]; [now (trivial || case sx).. |]. case sx; [reflexivity|]. simpl. rewrite B2SF_SF2B.
  set (melz := SFsqrt_core_binary _ _ _ _). case melz as [[mz ez] lz]. apply round_aux_equiv.
Qed.

(** ** Operation by operation *)
Lemma means_add a b x y : means a x -> means b y -> Rabs (b64 (x + y)) < bpow radix2 emax -> means (SFadd prec emax a b) (b64 (x + y)).
Proof.
  intros (f & <- & Ff & <-) (g & <- & Fg & <-) H. rewrite add_equiv. exists (Bplus mode_NE f g). split; [reflexivity|].
  pose proof (Bplus_correct prec emax Hprec Hmax mode_NE f g Ff Fg) as C. rewrite Rlt_bool_true in C by exact H. destruct C as (C & D & _). auto.
Qed.
Lemma means_sub a b x y : means a x -> means b y -> Rabs (b64 (x - y)) < bpow radix2 emax -> means (SFsub prec emax a b) (b64 (x - y)).
Proof.
  intros (f & <- & Ff & <-) (g & <- & Fg & <-) H. rewrite sub_equiv. exists (Bminus mode_NE f g). split; [reflexivity|].
  pose proof (Bminus_correct prec emax Hprec Hmax mode_NE f g Ff Fg) as C. rewrite Rlt_bool_true in C by exact H. destruct C as (C & D & _). auto.
Qed.
Lemma means_mul a b x y : means a x -> means b y -> Rabs (b64 (x * y)) < bpow radix2 emax -> means (SFmul prec emax a b) (b64 (x * y)).
Proof.
  intros (f & <- & Ff & <-) (g & <- & Fg & <-) H. rewrite mul_equiv. exists (Bmult mode_NE f g). split; [reflexivity|].
  pose proof (Bmult_correct prec emax Hprec Hmax mode_NE f g) as C. rewrite Rlt_bool_true in C by exact H. destruct C as (C & D & _). rewrite Ff, Fg in D. auto.
Qed.
Lemma means_div a b x y : means a x -> means b y -> y <> 0 -> Rabs (b64 (x / y)) < bpow radix2 emax -> means (SFdiv prec emax a b) (b64 (x / y)).
Proof.
  intros (f & <- & Ff & <-) (g & <- & Fg & <-) Hy H. rewrite div_equiv. exists (Bdiv mode_NE f g). split; [reflexivity|].
  pose proof (Bdiv_correct prec emax Hprec Hmax mode_NE f g Hy) as C. rewrite Rlt_bool_true in C by exact H. destruct C as (C & D & _). rewrite Ff in D. auto.
Qed.
Lemma means_sqrt a x : means a x -> 0 <= x -> means (SFsqrt prec emax a) (b64 (sqrt x)).
Proof.
  intros (f & <- & Ff & <-) Hx. rewrite sqrt_equiv. exists (Bsqrt mode_NE f). split; [reflexivity|].
  destruct (Bsqrt_correct prec emax Hprec Hmax mode_NE f) as (C & D & _). split; [|exact C]. rewrite D. destruct f as [s|s| |s m e Hb]; try discriminate; [reflexivity|].
  destruct s; [|reflexivity]. exfalso. cbn in Hx. assert (F2R (Float radix2 (Zneg m) e) < 0) by (apply F2R_lt_0; reflexivity). unfold cond_Zopp in *. cbn in *. lra.
Qed.
Lemma means_neg a x : means a x -> means (SFopp a) (- x).
Proof.
  intros (f & <- & Ff & <-). exists (Bopp f). split; [destruct f; reflexivity|]. split; [rewrite is_finite_Bopp; exact Ff|apply B2R_Bopp].
Qed.
Lemma means_abs a x : means a x -> means (SFabs a) (Rabs x).
Proof.
  intros (f & <- & Ff & <-). exists (Babs f). split; [destruct f; reflexivity|]. split; [rewrite is_finite_Babs; exact Ff|apply B2R_Babs].
Qed.
Lemma means_lt a b x y : means a x -> means b y -> SFltb a b = Rlt_bool x y.
Proof. intros (f & <- & Ff & <-) (g & <- & Fg & <-). exact (Bltb_correct prec emax f g Ff Fg). Qed.
Lemma means_le a b x y : means a x -> means b y -> SFleb a b = Rle_bool x y.
Proof. intros (f & <- & Ff & <-) (g & <- & Fg & <-). exact (Bleb_correct prec emax f g Ff Fg). Qed.
Lemma means_eq a b x y : means a x -> means b y -> SFeqb a b = Req_bool x y.
Proof. intros (f & <- & Ff & <-) (g & <- & Fg & <-). exact (Beqb_correct prec emax f g Ff Fg). Qed.
Lemma means_Z z : Rabs (b64 (IZR z)) < bpow radix2 emax -> means (sf_ofZ z) (b64 (IZR z)).
Proof.
  intros H. unfold sf_ofZ. rewrite normalize_equiv. eexists. split; [reflexivity|].
  pose proof (binary_normalize_correct prec emax Hprec Hmax mode_NE z 0 false) as C. cbv zeta in C.
  assert (E : F2R (Float radix2 z 0) = IZR z) by (unfold F2R; cbn; ring). rewrite E, Rlt_bool_true in C by exact H. destruct C as (C & D & _). auto.
Qed.
Lemma means_b64 a x : means a x -> is_b64 x.
Proof. intros (f & _ & _ & <-). exact (generic_format_B2R prec emax f). Qed.
Lemma means_bound a x : means a x -> Rabs x < bpow radix2 emax.
Proof. intros (f & _ & _ & <-). apply abs_B2R_lt_emax. Qed.
Lemma means_unique a x y : means a x -> means a y -> x = y.
Proof. intros (f & <- & _ & <-) (g & E & _ & <-). apply B2SF_inj in E. congruence. Qed.
Lemma means_inj a b x : means a x -> means b x -> x <> 0 -> a = b.
Proof.
  intros (f & <- & Ff & E) (g & <- & Fg & E') H. f_equal. apply B2R_inj; [| |congruence].
  - destruct f; try discriminate; [cbn in E; congruence|reflexivity].
  - destruct g; try discriminate; [cbn in E'; congruence|reflexivity].
Qed.
Lemma means_zero a : means a 0 -> exists s, a = S754_zero s.
Proof.
  intros (f & <- & Ff & E). destruct f as [s|s| |s m e Hb]; try discriminate; [exists s; reflexivity|]. exfalso. cbn in E. apply eq_0_F2R in E. destruct s; discriminate.
Qed.
Lemma zero_means s : means (S754_zero s) 0.
Proof. exists (B754_zero s). auto. Qed.
(** no infinity: x < INFINITY holds *)
Lemma means_inf a x : means a x -> SFltb a (S754_infinity false) = true.
Proof. intros (f & <- & Ff & _). destruct f; try discriminate; destruct s; reflexivity. Qed.

Lemma b64_id x : is_b64 x -> b64 x = x.
Proof. intros H. apply round_generic; [apply valid_rnd_N|exact H]. Qed.
Lemma int_b64 z : (Z.abs z <= 2 ^ 53)%Z -> is_b64 (IZR z).
Proof.
  intros H. replace (IZR z) with (F2R (Float radix2 z 0)) by (unfold F2R; cbn; ring). 
  destruct (Z.eq_dec (Z.abs z) (2 ^ 53)) as [E|E].
  - destruct (Z.abs_eq_or_opp z) as [K|K]; [replace z with (2 ^ 53)%Z by lia|replace z with (- (2 ^ 53))%Z by lia].
    + replace (F2R (Float radix2 (2 ^ 53) 0)) with (bpow radix2 53) by (unfold F2R; cbn; ring). apply generic_format_FLT_bpow; [apply Hprec|lia].
    + replace (F2R (Float radix2 (- (2 ^ 53)) 0)) with (- bpow radix2 53) by (unfold F2R; cbn; ring). apply generic_format_opp. apply generic_format_FLT_bpow; [apply Hprec|lia].
  - apply generic_format_FLT. eapply FLT_spec; [reflexivity| |]; cbn [Fnum Fexp]; [change (Zpower_nat radix2) with (Zpower_nat 2)|]; [|lia]. change (radix2 ^ 53)%Z with (2 ^ 53)%Z. lia.
Qed.
Lemma means_int z : (Z.abs z <= 2 ^ 53)%Z -> means (sf_ofZ z) (IZR z).
Proof.
  intros H. rewrite <- (b64_id (IZR z)) by (apply int_b64; exact H). apply means_Z. rewrite b64_id by (apply int_b64; exact H).
  rewrite <- abs_IZR. eapply Rle_lt_trans; [apply IZR_le; exact H|]. change (2 ^ 53)%Z with (radix2 ^ 53)%Z. rewrite (IZR_Zpower radix2 53) by lia. apply bpow_lt. lia.
Qed.
Lemma means_floor a x : means a x -> means (sf_floor a) (IZR (Zfloor x)).
Proof.
  intros M. pose proof M as (f & Ea & Ff & E). subst a. destruct f as [s|s| |s m e Hb]; try discriminate.
  { cbn in E. subst x. change (IZR 0) with 0 in *. replace (Zfloor 0) with 0%Z by (symmetry; apply (Zfloor_IZR 0)). exact (zero_means s). }
  cbn [B2SF BinarySingleNaN.B2SF sf_floor] in *. cbn in E. set (v := if s then Zneg m else Zpos m). 
  assert (Ev : x = F2R (Float radix2 v e)) by (rewrite <- E; unfold v; destruct s; reflexivity).
  destruct (Z.leb_spec 0 e).
  - assert (Ei : IZR (Zfloor x) = x).
    { rewrite Ev. unfold F2R. cbn [Fnum Fexp]. rewrite <- (IZR_Zpower radix2 e), <- mult_IZR, Zfloor_IZR by lia. reflexivity. }
    rewrite Ei. exact M.
  - assert (Ef : Zfloor x = (v / 2 ^ (- e))%Z).
    { rewrite Ev. apply Zfloor_imp. unfold F2R. cbn [Fnum Fexp]. assert (P : (0 < 2 ^ (- e))%Z) by (apply Z.pow_pos_nonneg; lia).
      assert (Q : bpow radix2 e = / IZR (2 ^ (- e))) by (change (2 ^ (- e))%Z with (radix2 ^ (- e))%Z; rewrite (IZR_Zpower radix2 (- e)), <- bpow_opp, Z.opp_involutive by lia; reflexivity).
      rewrite Q. assert (PR : 0 < IZR (2 ^ (- e))) by (apply IZR_lt; exact P). pose proof (Z.div_mod v (2 ^ (- e)) ltac:(lia)) as D. pose proof (Z.mod_pos_bound v (2 ^ (- e)) P) as B.
      set (D2 := (2 ^ (- e))%Z) in *. split.
      - apply Rmult_le_reg_r with (IZR D2); [exact PR|]. rewrite Rmult_assoc, Rinv_l, Rmult_1_r by lra. rewrite <- mult_IZR. apply IZR_le. lia.
      - apply Rmult_lt_reg_r with (IZR D2); [exact PR|]. rewrite Rmult_assoc, Rinv_l, Rmult_1_r by lra. rewrite <- mult_IZR. apply IZR_lt. lia. }
    rewrite Ef. destruct (Z.eqb_spec (v / 2 ^ (- e)) 0) as [K|K]; [rewrite K; exact (zero_means s)|]. apply means_int.
    assert (Bm : (Zpos m < 2 ^ 53)%Z).
    { destruct (proj1 (Bool.andb_true_iff _ _) Hb) as [Hc _]. unfold canonical_mantissa in Hc. apply Zeq_bool_eq in Hc. unfold fexp, emin in Hc. 
      assert (Hd : (Zpos (digits2_pos m) <= 53)%Z) by lia. rewrite Digits.Zpos_digits2_pos in Hd. apply Digits.Zpower_gt_Zdigits in Hd. change (radix2 ^ 53)%Z with (2 ^ 53)%Z in Hd. lia. }
    assert (P : (1 <= 2 ^ (- e))%Z) by (assert (0 < 2 ^ (- e))%Z by (apply Z.pow_pos_nonneg; lia); lia).
    assert (Hv : (Z.abs v < 2 ^ 53)%Z) by (unfold v; destruct s; lia).
    apply Z.abs_le. split; [apply Z.div_le_lower_bound; nia|apply Z.div_le_upper_bound; nia].
Qed.
Lemma means_trunc a x : means a x -> sf_trunc a = Some (Ztrunc x).
Proof.
  intros (f & <- & Ff & <-). destruct f as [s|s| |s m e Hb]; try discriminate.
  { cbn. f_equal. symmetry. apply (Ztrunc_IZR 0). }
  cbn [B2SF BinarySingleNaN.B2SF sf_trunc BinarySingleNaN.B2R]. f_equal. unfold F2R. cbn [Fnum Fexp].
  assert (P : Ztrunc (IZR (Zpos m) * bpow radix2 e) = (if (0 <=? e)%Z then Zpos m * 2 ^ e else Zpos m / 2 ^ (- e))%Z).
  { destruct (Z.leb_spec 0 e).
    - rewrite <- (IZR_Zpower radix2 e), <- mult_IZR, Ztrunc_IZR by lia. reflexivity.
    - rewrite Ztrunc_floor by (apply Rmult_le_pos; [apply IZR_le; lia|apply bpow_ge_0]). 
      assert (Q : bpow radix2 e = / IZR (2 ^ (- e))) by (change (2 ^ (- e))%Z with (radix2 ^ (- e))%Z; rewrite (IZR_Zpower radix2 (- e)), <- bpow_opp, Z.opp_involutive by lia; reflexivity). rewrite Q.
      apply Zfloor_div. assert (0 < 2 ^ (- e))%Z by (apply Z.pow_pos_nonneg; lia). lia. }
  destruct s; cbn [cond_Zopp].
  - change (Zneg m) with (- Zpos m)%Z. rewrite opp_IZR, <- Ropp_mult_distr_l, Ztrunc_opp, P. reflexivity.
  - symmetry. exact P.
Qed.
Lemma Hprec32 : FLX.Prec_gt_0 24. Proof. reflexivity. Qed.
Lemma Hmax32 : Prec_lt_emax 24 128. Proof. reflexivity. Qed.
Lemma means_f32 a x : means a x -> Rabs (b32 x) < bpow radix2 128 -> means (sf_to32 a) (b32 x).
Proof.
  intros (f & <- & Ff & <-) H. destruct f as [s|s| |s m e Hb]; try discriminate.
  { cbn. unfold b32. rewrite round_0 by apply valid_rnd_N. apply zero_means. }
  cbn [B2SF BinarySingleNaN.B2SF sf_to32 BinarySingleNaN.B2R] in *. rewrite round_equiv.
  pose proof (binary_round_correct 24 128 Hprec32 Hmax32 mode_NE s m e) as C. cbv zeta in C. destruct C as [Hv C].
  rewrite Rlt_bool_true in C by exact H. destruct C as (C & D & _). destruct (BinarySingleNaN.binary_round 24 128 mode_NE s m e) as [s'|s'| |s' m' e']; try discriminate.
  { assert (C0 : b32 (F2R (Float radix2 (cond_Zopp s (Zpos m)) e)) = 0) by (symmetry; exact C). rewrite C0. apply zero_means. }
  rewrite round_equiv. set (r := b32 (F2R (Float radix2 (cond_Zopp s (Zpos m)) e))) in *.
  assert (Er : F2R (Float radix2 (cond_Zopp s' (Zpos m')) e') = r) by exact C.
  assert (Fr : is_b64 r).
  { apply generic_inclusion_mag with (fexp1 := exp32); [|apply generic_format_round; [apply FLT_exp_valid; reflexivity|apply valid_rnd_N]].
    intros _. unfold exp64, exp32, FLT_exp. lia. }
  pose proof (binary_round_correct prec emax Hprec Hmax mode_NE s' m' e') as C'. cbv zeta in C'. destruct C' as [Hv' C']. rewrite Er in C'.
  assert (Rr : round radix2 (fexp prec emax) (round_mode mode_NE) r = r) by (apply (b64_id r Fr)).
  rewrite Rr in C'. rewrite Rlt_bool_true in C' by (eapply Rlt_trans; [exact H|apply bpow_lt; lia]). destruct C' as (C' & D' & _).
  exists (SF2B _ Hv'). rewrite B2SF_SF2B. split; [reflexivity|]. split; [rewrite is_finite_SF2B; exact D'|rewrite B2R_SF2B; exact C'].
Qed.

(** ** With bounds: [mb n a x]: [a] means [x] and |x| <= 2^n *)
Definition mb (n : Z) (a : spec_float) (x : R) : Prop := means a x /\ Rabs x <= bpow radix2 n.
Lemma round_bound n x : (-1074 <= n)%Z -> Rabs x <= bpow radix2 n -> Rabs (b64 x) <= bpow radix2 n.
Proof. intros Hn H. apply abs_round_le_generic; [apply FLT_exp_valid; apply Hprec|apply valid_rnd_N| |exact H]. apply generic_format_FLT_bpow; [apply Hprec|exact Hn]. Qed.
Lemma mb_weaken n n' a x : (n <= n')%Z -> mb n a x -> mb n' a x.
Proof. intros H [M B]. split; [exact M|]. eapply Rle_trans; [exact B|apply bpow_le; exact H]. Qed.
Lemma small_lt n x : (n <= 1000)%Z -> Rabs x <= bpow radix2 n -> Rabs x < bpow radix2 emax.
Proof. intros H B. eapply Rle_lt_trans; [exact B|]. apply bpow_lt. lia. Qed.
Lemma bpow_double n : bpow radix2 (n + 1) = 2 * bpow radix2 n.
Proof. rewrite bpow_plus. simpl (bpow radix2 1). lra. Qed.
Lemma mb_add n a b x y : (-1000 <= n <= 900)%Z -> mb n a x -> mb n b y -> mb (n + 1) (SFadd prec emax a b) (b64 (x + y)).
Proof.
  intros Hn [M B] [M' B']. assert (K : Rabs (b64 (x + y)) <= bpow radix2 (n + 1)).
  { apply round_bound; [lia|]. rewrite bpow_double. eapply Rle_trans; [apply Rabs_triang|lra]. }
  split; [|exact K]. apply means_add; auto. eapply small_lt; [|exact K]. lia.
Qed.
Lemma mb_sub n a b x y : (-1000 <= n <= 900)%Z -> mb n a x -> mb n b y -> mb (n + 1) (SFsub prec emax a b) (b64 (x - y)).
Proof.
  intros Hn [M B] [M' B']. assert (K : Rabs (b64 (x - y)) <= bpow radix2 (n + 1)).
  { apply round_bound; [lia|]. rewrite bpow_double. unfold Rminus. eapply Rle_trans; [apply Rabs_triang|]. rewrite Rabs_Ropp. lra. }
  split; [|exact K]. apply means_sub; auto. eapply small_lt; [|exact K]. lia.
Qed.
Lemma mb_mul n m a b x y : (-1000 <= n + m <= 900)%Z -> mb n a x -> mb m b y -> mb (n + m) (SFmul prec emax a b) (b64 (x * y)).
Proof.
  intros Hn [M B] [M' B']. assert (K : Rabs (b64 (x * y)) <= bpow radix2 (n + m)).
  { apply round_bound; [lia|]. rewrite bpow_plus, Rabs_mult. apply Rmult_le_compat; auto using Rabs_pos. }
  split; [|exact K]. apply means_mul; auto. eapply small_lt; [|exact K]. lia.
Qed.
(** division by a number of at least 2^m *)
Lemma mb_div n m a b x y : (-1000 <= n - m <= 900)%Z -> mb n a x -> means b y -> bpow radix2 m <= Rabs y -> mb (n - m) (SFdiv prec emax a b) (b64 (x / y)).
Proof.
  intros Hn [M B] M' B'. pose proof (bpow_gt_0 radix2 m) as P. assert (Hy : y <> 0) by (intros ->; rewrite Rabs_R0 in B'; lra).
  assert (K : Rabs (b64 (x / y)) <= bpow radix2 (n - m)).
  { apply round_bound; [lia|]. unfold Zminus. rewrite bpow_plus. unfold Rdiv. rewrite Rabs_mult, Rabs_inv. rewrite bpow_opp.
    apply Rmult_le_compat; auto using Rabs_pos; [left; apply Rinv_0_lt_compat; lra|]. apply Rinv_le; lra. }
  split; [|exact K]. apply means_div; auto. eapply small_lt; [|exact K]. lia.
Qed.
Lemma mb_neg n a x : mb n a x -> mb n (SFopp a) (- x).
Proof. intros [M B]. split; [apply means_neg; exact M|rewrite Rabs_Ropp; exact B]. Qed.
Lemma mb_sqrt n a x : (0 <= n <= 900)%Z -> mb n a x -> 0 <= x -> mb n (SFsqrt prec emax a) (b64 (sqrt x)).
Proof.
  intros Hn [M B] Hx. split; [apply means_sqrt; assumption|]. apply round_bound; [lia|]. rewrite Rabs_pos_eq by apply sqrt_pos. rewrite Rabs_pos_eq in B by exact Hx.
  rewrite <- (sqrt_pow2 (bpow radix2 n)) by apply bpow_ge_0. apply sqrt_le_1_alt. eapply Rle_trans; [exact B|].
  assert (1 <= bpow radix2 n) by (apply (bpow_le radix2 0); lia). assert (1 * bpow radix2 n <= bpow radix2 n * bpow radix2 n) by (apply Rmult_le_compat_r; lra). simpl. lra.
Qed.
Lemma mb_floor n a x : (0 <= n)%Z -> mb n a x -> mb n (sf_floor a) (IZR (Zfloor x)).
Proof.
  intros Hn [M B]. split; [apply means_floor; exact M|]. apply Rabs_le_inv in B. rewrite <- (IZR_Zpower radix2 n) in * by exact Hn.
  apply Rabs_le. split; [rewrite <- opp_IZR; apply IZR_le; apply Zfloor_lub; rewrite opp_IZR; lra|]. eapply Rle_trans; [apply Zfloor_lb|lra].
Qed.
