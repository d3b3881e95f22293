(** Sidereal time on actual doubles agrees with that on rounded reals *)
From Verif Require Import Base Num M_Helper M_Telescope P_Round P_Helper2 P_LstIEEE P_NumCorr P_Finite.
From Coq Require Import Reals Lra Lia Floats.SpecFloat.
From Flocq Require Import Core IEEE754.BinarySingleNaN.
Open Scope R_scope.

Lemma mb_f32 n a x : (0 <= n <= 100)%Z -> mb n a x -> mb n (f32 NumSF a) (f32 NumB x).
Proof.
  intros Hn [M B]. assert (K : Rabs (b32 x) <= bpow radix2 n) by (apply b32_bound; [lia|exact B]). split; [|exact K]. apply means_f32; [exact M|].
  eapply Rle_lt_trans; [exact K|apply bpow_lt; lia].
Qed.
Lemma mb_int n z : (0 <= n <= 53)%Z -> (Z.abs z <= 2 ^ n)%Z -> mb n (fZ NumSF z) (fZ NumB z).
Proof.
  intros Hn H. apply mbZ; [eapply Z.le_trans; [exact H|]; apply Z.pow_le_mono_r; lia|]. apply Z_bound; [lia|exact H].
Qed.
Lemma mb_fq n z d : (Z.abs z <= 2 ^ 53)%Z -> (Zpos d <= 2 ^ 53)%Z -> (0 <= n <= 53)%Z -> Rabs (IZR z) <= IZR (Zpos d) * bpow radix2 n -> mb n (fq NumSF z d) (fq NumB z d).
Proof.
  intros Hz Hd Hn B. cbn [fq NumSF NumB]. assert (P : 0 < IZR (Zpos d)) by (apply IZR_lt; reflexivity).
  assert (Q : Rabs (IZR z / IZR (Zpos d)) <= bpow radix2 n).
  { unfold Rdiv. rewrite Rabs_mult, Rabs_inv, (Rabs_pos_eq (IZR (Zpos d))) by lra. apply Rmult_le_reg_r with (IZR (Zpos d)); [exact P|]. rewrite Rmult_assoc, Rinv_l by lra. lra. }
  assert (K : Rabs (b64 (IZR z / IZR (Zpos d))) <= bpow radix2 n) by (apply round_bound; [lia|exact Q]).
  split; [|exact K]. apply means_div; [apply means_int; exact Hz|apply means_int; lia|lra|]. eapply small_lt; [|exact K]. lia.
Qed.
(** division by a positive integer constant *)
Lemma mb_divZ n a x z : (0 <= n <= 900)%Z -> mb n a x -> (1 <= z <= 2 ^ 53)%Z -> mb n (fdiv NumSF a (fZ NumSF z)) (fdiv NumB x (fZ NumB z)).
Proof.
  intros Hn M Hz. cbn [fdiv NumSF NumB]. replace n with (n - 0)%Z by lia. apply mb_div; [lia|exact M|apply meansZ; lia|].
  rewrite fZB by lia. simpl bpow. rewrite Rabs_pos_eq; [apply IZR_le; lia|apply IZR_le; lia].
Qed.
Lemma mb_fadd n a b x y : (0 <= n <= 900)%Z -> mb n a x -> mb n b y -> mb (n + 1) (fadd NumSF a b) (fadd NumB x y).
Proof. intros. apply mb_add; [lia|assumption..]. Qed.
Lemma mb_fsub n a b x y : (0 <= n <= 900)%Z -> mb n a x -> mb n b y -> mb (n + 1) (fsub NumSF a b) (fsub NumB x y).
Proof. intros. apply mb_sub; [lia|assumption..]. Qed.
Lemma mb_fmul n m a b x y : (0 <= n + m <= 900)%Z -> mb n a x -> mb m b y -> mb (n + m) (fmul NumSF a b) (fmul NumB x y).
Proof. intros. apply mb_mul; [lia|assumption..]. Qed.
Lemma mb_ffloor n a x : (0 <= n)%Z -> mb n a x -> mb n (ffloor NumSF a) (ffloor NumB x).
Proof. intros. apply mb_floor; assumption. Qed.
Ltac up n := eapply (mb_weaken n); [lia|].

Definition civil (t : tm) : Prop := ((Z.abs (tm_year t) <= 2 ^ 16) /\ (Z.abs (tm_mon t) <= 2 ^ 10) /\ (Z.abs (tm_mday t) <= 2 ^ 10) /\
  (Z.abs (tm_hour t) <= 2 ^ 10) /\ (Z.abs (tm_min t) <= 2 ^ 10) /\ (Z.abs (tm_sec t) <= 2 ^ 10))%Z.

Lemma julian_agrees t : civil t -> mb 40 (julianDay NumSF t) (julianDay NumB t).
Proof.
  intros (Hy & Hmo & Hd & _). unfold julianDay. destruct (if (tm_mon t <=? 2)%Z then _ else _) as [ye mo] eqn:Ey.
  assert (Hye : (Z.abs ye <= 2 ^ 17)%Z /\ (Z.abs mo <= 2 ^ 11)%Z).
  { destruct (tm_mon t <=? 2)%Z; injection Ey as <- <-; lia. }
  destruct Hye as [Hye Hmo']. clear Ey.
  assert (HA : mb 17 (ffloor NumSF (f32 NumSF (fdiv NumSF (f32 NumSF (fZ NumSF ye)) (fZ NumSF 100)))) (ffloor NumB (f32 NumB (fdiv NumB (f32 NumB (fZ NumB ye)) (fZ NumB 100))))).
  { apply mb_ffloor; [lia|]. apply mb_f32; [lia|]. apply mb_divZ; [lia| |lia]. apply mb_f32; [lia|]. apply mb_int; lia. }
  set (A := ffloor NumSF _) in *. set (A' := ffloor NumB (f32 NumB (fdiv NumB (f32 NumB (fZ NumB ye)) _))) in *. clearbody A A'.
  apply mb_f32; [lia|]. up 39%Z. apply (mb_fsub 38); [lia| |].
  - up 37%Z. apply (mb_fadd 36); [lia| |].
    + up 35%Z. apply (mb_fadd 34); [lia| |].
      * up 33%Z. apply (mb_fadd 32); [lia| |].
        -- apply mb_ffloor; [lia|]. apply mb_f32; [lia|]. up 30%Z. apply (mb_fmul 10 20); [lia| |].
           ++ apply mb_f32; [lia|]. apply mb_fq; [lia|lia|lia|]. rewrite Rabs_pos_eq by lra. simpl bpow. lra.
           ++ apply mb_f32; [lia|]. apply mb_int; lia.
        -- apply mb_ffloor; [lia|]. up 20%Z. apply (mb_fmul 5 15); [lia| |].
           ++ apply mb_fq; [lia|lia|lia|]. rewrite Rabs_pos_eq by lra. simpl bpow. lra.
           ++ apply mb_int; lia.
      * apply mb_int; lia.
    + up 20%Z. apply mb_f32; [lia|]. up 19%Z. apply (mb_fadd 18); [lia| |].
      * apply mb_f32; [lia|]. apply (mb_fsub 17); [lia|apply mb_int; lia|exact HA].
      * up 17%Z. apply mb_ffloor; [lia|]. apply mb_f32; [lia|]. apply mb_divZ; [lia|exact HA|lia].
  - apply mb_fq; [lia|lia|lia|]. rewrite Rabs_pos_eq by lra. simpl bpow. lra.
Qed.
Lemma lst_agrees t lon (lon' : R) : civil t -> means lon lon' -> Rabs lon' <= 1000 ->
  means (getLocalSiderealTimeDegrees NumSF t lon) (getLocalSiderealTimeDegrees NumB t lon').
Proof.
  intros Hc Ml Bl. pose proof (julian_agrees t Hc) as J. destruct Hc as (_ & _ & _ & Hh & Hm & Hs). unfold getLocalSiderealTimeDegrees.
  assert (D : mb 44 (deltaJulian NumSF t) (deltaJulian NumB t)).
  { unfold deltaJulian. apply (mb_fadd 43); [lia| |].
    - apply (mb_fadd 42); [lia| |].
      + apply (mb_fadd 41); [lia| |].
        * apply (mb_fsub 40); [lia|exact J|apply mb_int; lia].
        * up 10%Z. apply mb_divZ; [lia|apply mb_int; lia|lia].
      + up 10%Z. apply mb_divZ; [lia|apply mb_divZ; [lia|apply mb_int; lia|lia]|lia].
    - up 10%Z. apply mb_divZ; [lia|apply mb_divZ; [lia|apply mb_int; lia|lia]|lia]. }
  set (d := deltaJulian NumSF t) in *. set (d' := deltaJulian NumB t) in *. clearbody d d'. cbv zeta.
  apply (mb_f_mod 110); [lia|]. apply (mb_fadd 109); [lia| |split; [exact Ml|eapply Rle_trans; [exact Bl|]; eapply Rle_trans; [|apply (bpow_le radix2 10 109); lia]; simpl bpow; lra]].
  apply (mb_fadd 108); [lia| |].
  - up 60%Z. apply (mb_fadd 59); [lia| |].
    + up 10%Z. apply mb_fq; [lia|lia|lia|]. rewrite Rabs_pos_eq by lra. simpl bpow. lra.
    + up 54%Z. apply (mb_fmul 10 44); [lia| |exact D]. apply mb_fq; [lia|lia|lia|]. rewrite Rabs_pos_eq by lra. simpl bpow. lra.
  - up 98%Z. apply (mb_fmul 54 44); [lia| |apply mb_divZ; [lia|exact D|lia]]. apply (mb_fmul 10 44); [lia| |apply mb_divZ; [lia|exact D|lia]].
    apply mb_fq; [lia|lia|lia|]. rewrite Rabs_pos_eq by lra. simpl bpow. lra.
Qed.
