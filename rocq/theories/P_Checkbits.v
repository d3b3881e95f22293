From Verif Require Import Base M_Checkbits S_Checkbits.

Lemma land_1 x : Z.land x 1 = Z.b2z (Z.testbit x 0).
Proof.
  apply Z.bits_inj'; intros n Hn.
  rewrite Z.land_spec.
  destruct (Z.eq_dec n 0) as [->|Hz].
  - change (Z.testbit 1 0) with true. rewrite andb_true_r.
    destruct (Z.testbit x 0); reflexivity.
  - replace (Z.testbit 1 n) with false by (symmetry; apply (Z.bits_above_log2 1 n); simpl; lia).
    rewrite andb_false_r. destruct (Z.testbit x 0); simpl.
    + symmetry; apply (Z.bits_above_log2 1 n); simpl; lia.
    + symmetry; apply Z.testbit_0_l.
Qed.

Lemma bit_at_b2z x k : 0 <= k -> bit_at x k = Z.b2z (Z.testbit x k).
Proof. intros. unfold bit_at. rewrite land_1, Z.shiftr_spec by lia. reflexivity. Qed.

Lemma masked_bit d m k : 0 <= k -> Z.testbit m k = true -> Z.testbit (Z.land d m) k = Z.testbit d k.
Proof. intros. rewrite Z.land_spec, H0, andb_true_r. reflexivity. Qed.

Definition par (d : Z) (l : list Z) : bool := fold_right (fun k b => xorb (Z.testbit d k) b) false l.

Lemma odd_ones g w : Nat.odd (ones g w) = par w g.
Proof.
  unfold ones. induction g as [|k g IH]; simpl; [reflexivity|].
  destruct (Z.testbit w k); simpl; rewrite <- IH.
  - rewrite Nat.odd_succ, <- Nat.negb_odd. destruct (Nat.odd _); reflexivity.
  - destruct (Nat.odd _); reflexivity.
Qed.

Lemma verify_par d : verifyAmtCheckbits d = par d even_group && par d odd_group.
Proof.
  unfold verifyAmtCheckbits. rewrite land_1.
  rewrite !bit_at_b2z by lia.
  rewrite !masked_bit by (lia || reflexivity).
  unfold par, even_group, odd_group; cbn [fold_right].
  f_equal;
  (repeat match goal with |- context [Z.testbit d ?k] =>
    let b := fresh "b" in generalize (Z.testbit d k); intro b end;
   destruct b, b0, b1, b2, b3, b4, b5, b6; reflexivity).
Qed.

Lemma verify_good d : verifyAmtCheckbits d = true <-> good_frame d.
Proof.
  rewrite verify_par, andb_true_iff. unfold good_frame. rewrite !odd_ones. reflexivity.
Qed.

Lemma par_lxor g a b : par (Z.lxor a b) g = xorb (par a g) (par b g).
Proof.
  induction g as [|k g IH]; simpl; [reflexivity|].
  rewrite IH, Z.lxor_spec.
  destruct (Z.testbit a k), (Z.testbit b k), (par a g), (par b g); reflexivity.
Qed.

Lemma verify_detects w e :
  verifyAmtCheckbits w = true ->
  (verifyAmtCheckbits (corrupt w e) = false <->
   Nat.odd (ones even_group e) = true \/ Nat.odd (ones odd_group e) = true).
Proof.
  rewrite !verify_par, !odd_ones. unfold corrupt. rewrite !par_lxor.
  destruct (par w even_group), (par w odd_group), (par e even_group), (par e odd_group);
    simpl; intros; try discriminate; intuition discriminate.
Qed.

Lemma verify_single_bit w k : 0 <= k < 16 ->
  verifyAmtCheckbits w = true -> verifyAmtCheckbits (corrupt w (2 ^ k)) = false.
Proof.
  intros Hk Hv. apply (verify_detects w (2^k) Hv). rewrite !odd_ones.
  assert (k = 0 \/ k = 1 \/ k = 2 \/ k = 3 \/ k = 4 \/ k = 5 \/ k = 6 \/ k = 7 \/ k = 8 \/ k = 9
   \/ k = 10 \/ k = 11 \/ k = 12 \/ k = 13 \/ k = 14 \/ k = 15) by lia.
  repeat (destruct H as [->|H]; [ vm_compute; auto; fail | ]). subst; vm_compute; auto.
Qed.

Lemma par_ext g a b : (forall k, In k g -> Z.testbit a k = Z.testbit b k) -> par a g = par b g.
Proof.
  induction g as [|k g IH]; simpl; intros H; [reflexivity|].
  rewrite (H k), IH by auto. reflexivity.
Qed.

Lemma verify_low16 d : verifyAmtCheckbits d = verifyAmtCheckbits (d mod 65536).
Proof.
  rewrite !verify_par. change 65536 with (2 ^ 16).
  f_equal; apply par_ext; intros k Hk; symmetry; apply Z.mod_pow2_bits_low;
    simpl in Hk; intuition lia.
Qed.

(** frame built from a 14-bit position and two check bits *)
Lemma frame_bits p c k : 0 <= p < 16384 -> 0 <= k ->
  Z.testbit (p + 16384 * c) k = if k <? 14 then Z.testbit p k else Z.testbit c (k - 14).
Proof.
  intros Hp Hk. change 16384 with (2^14) in *.
  destruct (k <? 14) eqn:E.
  - apply Z.ltb_lt in E.
    rewrite <- (Z.mod_pow2_bits_low (p + 2^14*c) 14 k) by lia.
    rewrite Z.mul_comm, Z.mod_add, Z.mod_small by lia. reflexivity.
  - apply Z.ltb_ge in E.
    replace k with ((k - 14) + 14) at 1 by lia.
    rewrite <- Z.div_pow2_bits by lia.
    rewrite Z.mul_comm, Z.div_add, Z.div_small by lia. reflexivity.
Qed.

Lemma verify_unique p : 0 <= p < 16384 ->
  exists c, (0 <= c < 4 /\ verifyAmtCheckbits (p + 16384 * c) = true) /\
    forall c', 0 <= c' < 4 /\ verifyAmtCheckbits (p + 16384 * c') = true -> c' = c.
Proof.
  intros Hp.
  assert (Hv : forall c, 0 <= c < 4 ->
     verifyAmtCheckbits (p + 16384 * c) =
     xorb (par p [0;2;4;6;8;10;12]) (Z.testbit c 0) && xorb (par p [1;3;5;7;9;11;13]) (Z.testbit c 1)).
  { intros c Hc. rewrite verify_par. unfold par, even_group, odd_group; cbn [fold_right].
    rewrite !frame_bits by lia.
    change (14 <? 14) with false; change (15 <? 14) with false.
    repeat match goal with |- context [?k <? 14] => change (k <? 14) with true end. cbv iota.
    change (14 - 14) with 0; change (15 - 14) with 1.
    rewrite !xorb_false_r, !xorb_assoc. reflexivity. }
  exists (Z.b2z (negb (par p [0;2;4;6;8;10;12])) + 2 * Z.b2z (negb (par p [1;3;5;7;9;11;13]))).
  split.
  - split; [destruct (par p [0;2;4;6;8;10;12]), (par p [1;3;5;7;9;11;13]); simpl; lia|].
    rewrite Hv by (destruct (par p [0;2;4;6;8;10;12]), (par p [1;3;5;7;9;11;13]); simpl; lia).
    destruct (par p [0;2;4;6;8;10;12]), (par p [1;3;5;7;9;11;13]); reflexivity.
  - intros c' [Hc' H]. rewrite Hv in H by auto.
    assert (c' = 0 \/ c' = 1 \/ c' = 2 \/ c' = 3) as [-> | [-> | [-> | ->]]] by lia;
    destruct (par p [0;2;4;6;8;10;12]), (par p [1;3;5;7;9;11;13]); simpl in *; try discriminate; reflexivity.
Qed.

Lemma verify_stuck : verifyAmtCheckbits 0 = false /\ verifyAmtCheckbits 0xFFFF = false.
Proof. split; reflexivity. Qed.
