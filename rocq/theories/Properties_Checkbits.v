(** C01-C03: AMT22 check bits. *)
From Verif Require Import Base M_Checkbits S_Checkbits P_Checkbits.

Theorem C01_accept_iff_good_frame : forall data,
  verifyAmtCheckbits data = true <-> good_frame data.
Proof. exact verify_good. Qed.
Print Assumptions C01_accept_iff_good_frame.
(** the frame used by the repository's unit test *)
Example C01_nonvacuous : good_frame 0x61AB /\ ~ good_frame 0x61AA.
Proof. split; [split; reflexivity|intros [H _]; discriminate H]. Qed.

Theorem C01_only_low_16_bits_matter : forall data,
  verifyAmtCheckbits data = verifyAmtCheckbits (data mod 65536).
Proof. exact verify_low16. Qed.
Print Assumptions C01_only_low_16_bits_matter.

Theorem C02_any_single_bit_error_rejected : forall w k, 0 <= k < 16 ->
  verifyAmtCheckbits w = true -> verifyAmtCheckbits (corrupt w (2 ^ k)) = false.
Proof. exact verify_single_bit. Qed.
Print Assumptions C02_any_single_bit_error_rejected.
Example C02_nonvacuous : verifyAmtCheckbits 0x61AB = true. Proof. reflexivity. Qed.

(** exactly which error patterns on a good frame are noticed *)
Theorem C02_detected_error_patterns : forall w e, verifyAmtCheckbits w = true ->
  (verifyAmtCheckbits (corrupt w e) = false <->
   Nat.odd (ones even_group e) = true \/ Nat.odd (ones odd_group e) = true).
Proof. exact verify_detects. Qed.
Print Assumptions C02_detected_error_patterns.

Theorem C03_one_check_pair_per_position : forall p, 0 <= p < 16384 ->
  exists c, (0 <= c < 4 /\ verifyAmtCheckbits (p + 16384 * c) = true) /\
    forall c', 0 <= c' < 4 /\ verifyAmtCheckbits (p + 16384 * c') = true -> c' = c.
Proof. exact verify_unique. Qed.
Print Assumptions C03_one_check_pair_per_position.

Theorem C03_stuck_bus_rejected : verifyAmtCheckbits 0 = false /\ verifyAmtCheckbits 0xFFFF = false.
Proof. exact verify_stuck. Qed.
Print Assumptions C03_stuck_bus_rejected.
