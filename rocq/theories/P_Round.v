(** Rounding facts for binary64 and binary32. *)
From Verif Require Import Base Num.
From Coq Require Import Reals Lra Psatz.
From Flocq Require Import Core.
Open Scope R_scope.

Lemma b64_mono x y : x <= y -> b64 x <= b64 y.
Proof. apply round_le; [apply FLT_exp_valid; reflexivity|apply valid_rnd_N]. Qed.
Lemma b32_mono x y : x <= y -> b32 x <= b32 y.
Proof. apply round_le; [apply FLT_exp_valid; reflexivity|apply valid_rnd_N]. Qed.

Lemma is_b64_dyadic (m e : Z) : (Z.abs m < 2 ^ 53)%Z -> (-1074 <= e)%Z -> is_b64 (IZR m * bpow radix2 e).
Proof. intros. apply generic_format_FLT. exists (Float radix2 m e); simpl; auto. Qed.
Lemma is_b32_dyadic (m e : Z) : (Z.abs m < 2 ^ 24)%Z -> (-149 <= e)%Z -> is_b32 (IZR m * bpow radix2 e).
Proof. intros. apply generic_format_FLT. exists (Float radix2 m e); simpl; auto. Qed.
Lemma b64_id x : is_b64 x -> b64 x = x.
Proof. intros. apply round_generic; [apply valid_rnd_N|auto]. Qed.
Lemma b32_id x : is_b32 x -> b32 x = x.
Proof. intros. apply round_generic; [apply valid_rnd_N|auto]. Qed.
Lemma is_b32_b64 x : is_b32 x -> is_b64 x.
Proof.
  intros H. apply FLT_format_generic in H; [|reflexivity]. destruct H as [f H1 H2 H3].
  apply generic_format_FLT. exists f; auto; [|lia].
  eapply Z.lt_le_trans; [exact H2|]. apply Zpower_le. lia.
Qed.
Lemma is_b64_int (n : Z) : (Z.abs n < 2 ^ 53)%Z -> is_b64 (IZR n).
Proof. intros. rewrite <- (Rmult_1_r (IZR n)). apply (is_b64_dyadic n 0); auto; lia. Qed.
Lemma is_b32_int (n : Z) : (Z.abs n < 2 ^ 24)%Z -> is_b32 (IZR n).
Proof. intros. rewrite <- (Rmult_1_r (IZR n)). apply (is_b32_dyadic n 0); auto; lia. Qed.
Lemma b64_of_int (n : Z) : (Z.abs n < 2 ^ 53)%Z -> b64 (IZR n) = IZR n.
Proof. intros. apply b64_id, is_b64_int. auto. Qed.
Lemma b32_of_int (n : Z) : (Z.abs n < 2 ^ 24)%Z -> b32 (IZR n) = IZR n.
Proof. intros. apply b32_id, is_b32_int. auto. Qed.
Lemma is_b32_round x : is_b32 (b32 x).
Proof. apply generic_format_round; [apply FLT_exp_valid; reflexivity|apply valid_rnd_N]. Qed.
Lemma is_b64_round x : is_b64 (b64 x).
Proof. apply generic_format_round; [apply FLT_exp_valid; reflexivity|apply valid_rnd_N]. Qed.

Lemma b64_error (e : Z) x : (-1000 <= e)%Z -> Rabs x <= bpow radix2 e -> Rabs (b64 x - x) <= bpow radix2 (e - 53).
Proof.
  intros He Hx. unfold b64. eapply Rle_trans.
  - apply error_le_half_ulp. apply FLT_exp_valid. reflexivity.
  - apply Rle_trans with (/2 * ulp radix2 exp64 (bpow radix2 e)).
    + apply Rmult_le_compat_l; [lra|].
      rewrite <- (ulp_abs radix2 exp64 x). apply ulp_le_pos; auto with typeclass_instances.
      apply FLT_exp_valid; reflexivity. apply FLT_exp_monotone. apply Rabs_pos.
    + rewrite ulp_bpow. unfold exp64, FLT_exp. rewrite Z.max_l by lia.
      replace (e + 1 - 53)%Z with (e - 53 + 1)%Z by lia. rewrite bpow_plus. simpl (bpow radix2 1). lra.
Qed.
Lemma b32_error (e : Z) x : (-100 <= e)%Z -> Rabs x <= bpow radix2 e -> Rabs (b32 x - x) <= bpow radix2 (e - 24).
Proof.
  intros He Hx. unfold b32. eapply Rle_trans.
  - apply error_le_half_ulp. apply FLT_exp_valid. reflexivity.
  - apply Rle_trans with (/2 * ulp radix2 exp32 (bpow radix2 e)).
    + apply Rmult_le_compat_l; [lra|].
      rewrite <- (ulp_abs radix2 exp32 x). apply ulp_le_pos; auto with typeclass_instances.
      apply FLT_exp_valid; reflexivity. apply FLT_exp_monotone. apply Rabs_pos.
    + rewrite ulp_bpow. unfold exp32, FLT_exp. rewrite Z.max_l by lia.
      replace (e + 1 - 24)%Z with (e - 24 + 1)%Z by lia. rewrite bpow_plus. simpl (bpow radix2 1). lra.
Qed.
(** the half-ulp bound below the top of a binade: for |x| < 2^e *)
Lemma b32_error_lt (e : Z) x : (-100 <= e)%Z -> Rabs x < bpow radix2 e -> Rabs (b32 x - x) <= bpow radix2 (e - 25).
Proof.
  intros He Hx. unfold b32. eapply Rle_trans.
  - apply error_le_half_ulp. apply FLT_exp_valid. reflexivity.
  - destruct (Req_dec x 0) as [->|Hn].
    + unfold exp32; rewrite ulp_FLT_0 by reflexivity. assert (bpow radix2 (-149) <= bpow radix2 (e - 24)) by (apply bpow_le; lia).
      replace (e - 24)%Z with (e - 25 + 1)%Z in H by lia. rewrite bpow_plus in H. simpl (bpow radix2 1) in H. lra.
    + rewrite ulp_neq_0 by auto. unfold cexp, exp32, FLT_exp.
      assert (mag radix2 x <= e)%Z by (apply mag_le_bpow; auto).
      apply Rle_trans with (/2 * bpow radix2 (e - 24)).
      * apply Rmult_le_compat_l; [lra|]. apply bpow_le. lia.
      * replace (e - 24)%Z with (e - 25 + 1)%Z by lia. rewrite bpow_plus. simpl (bpow radix2 1). lra.
Qed.
Lemma b64_error_lt (e : Z) x : (-1000 <= e)%Z -> Rabs x < bpow radix2 e -> Rabs (b64 x - x) <= bpow radix2 (e - 54).
Proof.
  intros He Hx. unfold b64. eapply Rle_trans.
  - apply error_le_half_ulp. apply FLT_exp_valid. reflexivity.
  - destruct (Req_dec x 0) as [->|Hn].
    + unfold exp64; rewrite ulp_FLT_0 by reflexivity. assert (bpow radix2 (-1074) <= bpow radix2 (e - 53)) by (apply bpow_le; lia).
      replace (e - 53)%Z with (e - 54 + 1)%Z in H by lia. rewrite bpow_plus in H. simpl (bpow radix2 1) in H. lra.
    + rewrite ulp_neq_0 by auto. unfold cexp, exp64, FLT_exp.
      assert (mag radix2 x <= e)%Z by (apply mag_le_bpow; auto).
      apply Rle_trans with (/2 * bpow radix2 (e - 53)).
      * apply Rmult_le_compat_l; [lra|]. apply bpow_le. lia.
      * replace (e - 53)%Z with (e - 54 + 1)%Z by lia. rewrite bpow_plus. simpl (bpow radix2 1). lra.
Qed.

Lemma b64_floor_ge x (n : Z) : (Z.abs n < 2 ^ 53)%Z -> IZR n <= x -> IZR n <= b64 x.
Proof. intros. rewrite <- (b64_of_int n) by auto. apply b64_mono; auto. Qed.
Lemma b32_floor_ge x (n : Z) : (Z.abs n < 2 ^ 24)%Z -> IZR n <= x -> IZR n <= b32 x.
Proof. intros. rewrite <- (b32_of_int n) by auto. apply b32_mono; auto. Qed.
Lemma b64_le_int x (n : Z) : (Z.abs n < 2 ^ 53)%Z -> x <= IZR n -> b64 x <= IZR n.
Proof. intros. rewrite <- (b64_of_int n) by auto. apply b64_mono; auto. Qed.
Lemma b32_le_int x (n : Z) : (Z.abs n < 2 ^ 24)%Z -> x <= IZR n -> b32 x <= IZR n.
Proof. intros. rewrite <- (b32_of_int n) by auto. apply b32_mono; auto. Qed.
