(** C61, C97: the Python server. *)
From Verif Require Import Base Num M_Python S_Stellarium P_Stellarium.
From Coq Require Import Reals Lra.
Open Scope Z_scope.

(** the most significant byte of a 32-bit word is an ASCII whitespace character (9..13 or 32) *)
Definition top_byte_is_space (w : Z) : Prop := 9 <= w / 2 ^ 24 <= 13 \/ w / 2 ^ 24 = 32.
(** the integer with the 32-bit two's-complement pattern [w] *)
Definition as_signed (w : Z) : Z := if w <? 2 ^ 31 then w else w - 2 ^ 32.

Lemma lstrip_length l : (length (lstrip l) <= length l)%nat.
Proof. induction l as [|c r IH]; simpl; [lia|]. destruct (is_space c); simpl; lia. Qed.
Lemma strip_last l c : hd 0 l <> 32 -> ~ (9 <= hd 0 l <= 13) -> l <> [] -> strip (l ++ [c]) =
  if is_space c then rev (lstrip (rev l)) else l ++ [c].
Proof.
  intros H1 H2 Hl. unfold strip. destruct l as [|x r]; [congruence|]. cbn [hd] in *.
  assert (E : is_space x = false).
  { unfold is_space. apply orb_false_iff. split; [apply Z.eqb_neq; auto|]. apply andb_false_iff.
    destruct (Z.leb_spec 9 x); [right; apply Z.leb_gt; lia|left; reflexivity]. }
  change ((x :: r) ++ [c]) with (x :: (r ++ [c])). cbn [lstrip]. rewrite E.
  change (x :: (r ++ [c])) with ((x :: r) ++ [c]). rewrite rev_app_distr. cbn [rev app lstrip].
  destruct (is_space c); [reflexivity|]. change (rev ?a ++ ?b) with (rev a ++ b).
  replace (c :: rev r ++ [x]) with (rev ((x :: r) ++ [c])) by (rewrite rev_app_distr; reflexivity).
  rewrite rev_involutive. reflexivity.
Qed.
Lemma goto_split t r d : goto_message t r d = (le_bytes 2 20 ++ le_bytes 2 0 ++ le_bytes 8 t ++ le_bytes 4 r ++ le_bytes 3 d) ++ [d / 2 ^ 24 mod 256].
Proof.
  unfold goto_message. rewrite <- !app_assoc. do 4 f_equal. cbn [le_bytes app]. do 3 f_equal.
  rewrite !Z.div_div by lia. reflexivity.
Qed.
Lemma u_at_field l k n : u_at l k n = field k n l.
Proof. unfold u_at, field. induction (firstn n (skipn k l)) as [|b r IH]; [reflexivity|]. cbn [fold_right le_value]. rewrite IH. reflexivity. Qed.

Section Any.
Context (N : Num) (valid_time : Z -> bool).
Notation handle := (py_handle N valid_time).

(** C97: a goto message with a sensible time is decoded exactly when the last byte (the top byte of the
    declination) is not whitespace, and then with the right values. *)
Theorem C97_decoded_exactly : forall t r d, 0 <= t < 2 ^ 63 -> valid_time t = true -> 0 <= r < 2 ^ 32 -> 0 <= d < 2 ^ 32 ->
  (top_byte_is_space d -> handle (goto_message t r d) = TooShort N) /\
  (~ top_byte_is_space d -> handle (goto_message t r d) =
     Decoded N (PyMsg N 20 0 t (fdiv N (fZ N r) (fdiv N (fZ N 2147483648) (fZ N 12)))
                         (fdiv N (fZ N (as_signed d)) (fdiv N (fZ N 1073741824) (fZ N 90))))).
Proof.
  intros t r d Ht Hv Hr Hd.
  assert (Hb : 0 <= d / 2 ^ 24 < 256) by (split; [apply Z.div_pos; lia|apply Z.div_lt_upper_bound; lia]).
  assert (L : forall a b c e, length (le_bytes 2 a ++ le_bytes 2 b ++ le_bytes 8 t ++ le_bytes 4 c ++ le_bytes 3 e) = 19%nat) by reflexivity.
  assert (G : strip (goto_message t r d) = if is_space (d / 2 ^ 24) then rev (lstrip (rev (le_bytes 2 20 ++ le_bytes 2 0 ++ le_bytes 8 t ++ le_bytes 4 r ++ le_bytes 3 d))) else goto_message t r d).
  { rewrite (goto_split t r d), (Z.mod_small (d / 2 ^ 24) 256) by lia. apply strip_last; [discriminate| |discriminate].
    cbn. lia. }
  split; intros Hs; unfold py_handle; rewrite G.
  - assert (E : is_space (d / 2 ^ 24) = true).
    { unfold is_space. apply orb_true_iff. destruct Hs as [Hs|Hs]; [right; apply andb_true_iff; split; apply Z.leb_le; lia|left; apply Z.eqb_eq; auto]. }
    rewrite E. rewrite rev_length. match goal with |- context [lstrip ?l] => pose proof (lstrip_length l) as K end.
    rewrite rev_length, L in K. destruct (Z.leb_spec 20 (Z.of_nat (length (lstrip (rev (le_bytes 2 20 ++ le_bytes 2 0 ++ le_bytes 8 t ++ le_bytes 4 r ++ le_bytes 3 d)))))); [lia|reflexivity].
  - assert (E : is_space (d / 2 ^ 24) = false).
    { unfold is_space, top_byte_is_space in *. destruct (Z.eqb_spec (d / 2 ^ 24) 32); [tauto|]. cbn [orb].
      destruct (Z.leb_spec 9 (d / 2 ^ 24)); [|reflexivity]. destruct (Z.leb_spec (d / 2 ^ 24) 13); [lia|reflexivity]. }
    rewrite E. change (length (goto_message t r d)) with 20%nat. cbn [Z.leb Z.of_nat].
    unfold unpack_hhqIi. change (length (goto_message t r d) =? 20)%nat with true. rewrite !u_at_field.
    destruct (goto_fields t r d) as (-> & -> & -> & -> & ->). change (256 ^ 4) with (2 ^ 32). change (256 ^ 8) with (2 ^ 64).
    rewrite (Z.mod_small t), (Z.mod_small r), (Z.mod_small d) by lia.
    replace (signed 64 t) with t. 2:{ unfold signed. destruct (Z.ltb_spec t (2 ^ (64 - 1))); [reflexivity|simpl in *; lia]. }
    rewrite Hv. reflexivity.
Qed.
(** anything longer than one message (after stripping) ends in an exception *)
Theorem C97_longer_input_raises : forall l, (20 < length (strip l))%nat -> handle l = Raised N.
Proof.
  intros l H. unfold py_handle, unpack_hhqIi. destruct (Z.leb_spec 20 (Z.of_nat (length (strip l)))); [|lia].
  destruct (Nat.eqb_spec (length (strip l)) 20); [lia|reflexivity].
Qed.
(** C61 is false: every goto message with a declination from 12.7 to 19.7 or 45 to 45.35 degrees is dropped *)
Theorem C61_declinations_dropped_refuted : forall t r d, 0 <= t < 2 ^ 63 -> valid_time t = true -> 0 <= r < 2 ^ 32 ->
  9 * 2 ^ 24 <= d < 14 * 2 ^ 24 \/ 32 * 2 ^ 24 <= d < 33 * 2 ^ 24 ->
  handle (goto_message t r d) = TooShort N.
Proof.
  intros t r d Ht Hv Hr Hd. apply C97_decoded_exactly; [assumption|assumption|assumption|lia|].
  unfold top_byte_is_space. destruct Hd as [Hd|Hd]; [left|right].
  - split; [apply Z.div_le_lower_bound; lia|]. assert (d / 2 ^ 24 < 14) by (apply Z.div_lt_upper_bound; lia). lia.
  - assert (d / 2 ^ 24 < 33) by (apply Z.div_lt_upper_bound; lia). assert (32 <= d / 2 ^ 24) by (apply Z.div_le_lower_bound; lia). lia.
Qed.
(** [z] is the integer a field of [bits] bits with pattern [w] stands for (two's complement) *)
Definition stands_for (bits w z : Z) : Prop := - 2 ^ (bits - 1) <= z < 2 ^ (bits - 1) /\ (z - w) mod 2 ^ bits = 0.
Lemma stands_signed bits w : 1 <= bits -> 0 <= w < 2 ^ bits -> stands_for bits w (signed bits w).
Proof.
  intros Hb H. assert (E : 2 ^ bits = 2 * 2 ^ (bits - 1)) by (rewrite <- Z.pow_succ_r by lia; f_equal; lia).
  unfold stands_for, signed. rewrite E in *. destruct (Z.ltb_spec w (2 ^ (bits - 1))).
  - split; [lia|]. rewrite Z.sub_diag. apply Z.mod_0_l. lia.
  - split; [lia|]. replace (w - 2 * 2 ^ (bits - 1) - w) with ((-1) * (2 * 2 ^ (bits - 1))) by lia. apply Z.mod_mul. lia.
Qed.
Lemma field_below l k n : Forall (fun c => 0 <= c < 256) l -> 0 <= field k n l < 256 ^ Z.of_nat n.
Proof.
  intros Hb. unfold field.
  assert (B : Forall (fun c => 0 <= c < 256) (firstn n (skipn k l))).
  { rewrite Forall_forall in *. intros x Hx. apply Hb. rewrite <- (firstn_skipn k l). apply in_or_app. right.
    rewrite <- (firstn_skipn n (skipn k l)). apply in_or_app. auto. }
  pose proof (firstn_le_length n (skipn k l)) as Hl. revert B Hl. generalize (firstn n (skipn k l)). clear.
  intros l B Hl. assert (H : 0 <= le_value l < 256 ^ Z.of_nat (length l)).
  { clear Hl. induction B as [|c r Hc Hr IH]; [cbn; lia|]. cbn [le_value length]. rewrite Nat2Z.inj_succ, Z.pow_succ_r by lia. lia. }
  split; [lia|]. apply Z.lt_le_trans with (1 := proj2 H). apply Z.pow_le_mono_r; lia.
Qed.
Lemma strip_none l : is_space (hd 0 l) = false -> is_space (last l 0) = false -> strip l = l.
Proof.
  intros H1 H2. destruct l as [|x r]; [reflexivity|]. unfold strip. cbn [hd] in H1. cbn [lstrip]. rewrite H1.
  destruct (exists_last (l := x :: r) ltac:(discriminate)) as (l' & c & E). rewrite E in *. rewrite last_last in H2.
  rewrite rev_app_distr. cbn [rev app lstrip]. rewrite H2. change (c :: rev l') with ([c] ++ rev l').
  rewrite rev_app_distr, rev_involutive. reflexivity.
Qed.
(** any 20 bytes that neither begin nor end with whitespace - not only well-formed goto messages - are read as the
    struct they are: two signed 16-bit numbers, a signed 64-bit time, an unsigned and a signed 32-bit angle *)
Theorem C97_any_message : forall l us, length l = 20%nat -> Forall (fun c => 0 <= c < 256) l ->
  is_space (hd 0 l) = false -> is_space (last l 0) = false ->
  stands_for 64 (field 4 8 l) us ->
  (valid_time us = true -> exists len ty d, handle l =
      Decoded N (PyMsg N len ty us (fdiv N (fZ N (field 12 4 l)) (fdiv N (fZ N 2147483648) (fZ N 12)))
                                   (fdiv N (fZ N d) (fdiv N (fZ N 1073741824) (fZ N 90)))) /\
      stands_for 16 (field 0 2 l) len /\ stands_for 16 (field 2 2 l) ty /\ stands_for 32 (field 16 4 l) d) /\
  (valid_time us = false -> handle l = Raised N).
Proof.
  intros l us HL Hb H1 H2 Hu. unfold py_handle. rewrite strip_none by assumption. rewrite HL. cbn [Z.leb Z.of_nat Z.compare Pos.of_succ_nat].
  unfold unpack_hhqIi. rewrite HL. rewrite !u_at_field. cbn [Nat.eqb].
  pose proof (field_below l 0 2 Hb) as B0. pose proof (field_below l 2 2 Hb) as B2. pose proof (field_below l 4 8 Hb) as B4. pose proof (field_below l 16 4 Hb) as B16.
  change (256 ^ Z.of_nat 2) with (2 ^ 16) in *. change (256 ^ Z.of_nat 8) with (2 ^ 64) in *. change (256 ^ Z.of_nat 4) with (2 ^ 32) in *.
  assert (E : us = signed 64 (field 4 8 l)).
  { pose proof (stands_signed 64 (field 4 8 l) ltac:(lia) B4) as [S1 S2]. destruct Hu as [U1 U2].
    apply Z.mod_divide in S2; [|lia]. apply Z.mod_divide in U2; [|lia]. destruct S2 as [a Ea], U2 as [b Eb].
    assert (us - signed 64 (field 4 8 l) = (b - a) * 2 ^ 64) by lia. change (64 - 1) with 63 in *.
    assert (b - a = 0) by nia. nia. }
  rewrite <- E. split; intros Hv; rewrite Hv; [|reflexivity].
  exists (signed 16 (field 0 2 l)), (signed 16 (field 2 2 l)), (signed 32 (field 16 4 l)). split; [reflexivity|].
  split; [apply stands_signed; [lia|exact B0]|]. split; [apply stands_signed; [lia|exact B2]|apply stands_signed; [lia|exact B16]].
Qed.
End Any.
Print Assumptions C97_any_message.
Example C97_any_message_nonvacuous : let l := [0xfe; 0xff; 0; 0x80; 1;0;0;0;0;0;0;0; 0;0;0;0x80; 0;0;0;0xff] in
  length l = 20%nat /\ Forall (fun c => 0 <= c < 256) l /\ is_space (hd 0 l) = false /\ is_space (last l 0) = false /\ stands_for 64 (field 4 8 l) 1 /\
  stands_for 16 (field 0 2 l) (-2) /\ stands_for 16 (field 2 2 l) (-32768).
Proof. cbv zeta. split; [reflexivity|]. split; [repeat constructor; lia|]. split; [reflexivity|]. split; [reflexivity|]. repeat split; vm_compute; discriminate. Qed.
Print Assumptions C97_decoded_exactly. Print Assumptions C97_longer_input_raises. Print Assumptions C61_declinations_dropped_refuted.
(** the decoded values, in exact arithmetic: hours and degrees of the protocol *)
Theorem C97_values_exact : forall valid_time t r d, 0 <= t < 2 ^ 63 -> valid_time t = true -> 0 <= r < 2 ^ 32 -> 0 <= d < 2 ^ 32 ->
  ~ top_byte_is_space d ->
  exists m, py_handle NumR valid_time (goto_message t r d) = Decoded NumR m /\ py_time NumR m = t /\
    (py_ra_h NumR m = IZR r * 24 / 4294967296)%R /\ (py_dec NumR m = IZR (as_signed d) * 360 / 4294967296)%R.
Proof.
  intros v t r d Ht Hv Hr Hd Hs. destruct (C97_decoded_exactly NumR v t r d Ht Hv Hr Hd) as [_ E].
  eexists. split; [apply E; exact Hs|]. cbn [py_time py_ra_h py_dec fdiv fZ NumR]. split; [reflexivity|].
  change (F NumR) with R. split; (change (F NumR) with R in *; field).
Qed.
Print Assumptions C97_values_exact.
(** the message quoted in the source (server.py:37), completed *)
Example C97_nonvacuous : ~ top_byte_is_space 0x00d98e50 /\ top_byte_is_space 0x20000000 /\
  (IZR 0x20000000 * 360 / 4294967296 = 45)%R.
Proof. unfold top_byte_is_space. split; [|split]; [vm_compute; intuition congruence|vm_compute; auto|lra]. Qed.
