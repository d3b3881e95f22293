(** Decoding of well-formed sentences, safe reading, buffer splitting. *)
From Verif Require Import Base Num M_Libc M_Helper M_Gnss S_Gnss P_Libc P_Gnss.

Definition sep (x : Z) : Prop := x = 44 \/ x = 42.
Lemma text_no n x : well_formed n -> x <> 46 -> is_digit x = false -> ~ In x (text n).
Proof.
  destruct n; simpl; intros H H1 H2 Hi; auto.
  - destruct H as [H _]. eapply digits_no_nul; eauto.
  - destruct H as (H & _ & H'). apply in_app_or in Hi. destruct Hi as [Hi|[Hi|Hi]]; [|congruence|];
    eapply digits_no_nul; [|eauto|eauto| |eauto|eauto]; auto.
Qed.

Notation is_char := letter_is.

Section Decode.
Context (N : Num) (pf : platform) (oor : conv_policy) (lc : libc N) (Hdec : strtof_decimal lc).

Lemma num_step s p n x rest : well_formed n -> sep x -> at_ s p (text n ++ x :: rest) ->
  strtof_at N lc s p = Ok (fvalue lc n, (p + length (text n))%nat).
Proof.
  intros W X A. unfold strtof_at. rewrite (at_cstr _ _ _ A).
  rewrite until_nul_app; [|apply text_no; auto; discriminate|destruct X; subst; discriminate].
  cbn [bind]. destruct Hdec as (D1 & D2 & D3). destruct n; simpl in *.
  - rewrite D3 by auto. reflexivity.
  - destruct W. rewrite D1 by auto. reflexivity.
  - destruct W as (? & ? & ?). rewrite <- app_assoc. simpl. rewrite D2 by auto. rewrite app_length. simpl. do 3 f_equal. lia.
Qed.
Lemma int_step s p ds x rest : digits ds -> digits_value ds < 2 ^ 31 -> sep x -> at_ s p (ds ++ x :: rest) ->
  strtol_at pf s p = Ok (digits_value ds, (p + length ds)%nat).
Proof.
  intros [D1 D2] V X A. unfold strtol_at. rewrite (at_cstr _ _ _ A).
  rewrite until_nul_app; [|eapply digits_no_nul; eauto|destruct X; subst; discriminate].
  cbn [bind]. rewrite strtol_digits; auto. destruct X; subst; reflexivity.
Qed.
Lemma int_step_pos s p ds x rest : digits ds -> sep x -> at_ s p (ds ++ x :: rest) ->
  exists v, strtol_at pf s p = Ok (v, (p + length ds)%nat).
Proof.
  intros [D1 D2] X A. unfold strtol_at. rewrite (at_cstr _ _ _ A).
  rewrite until_nul_app; [|eapply digits_no_nul; eauto|destruct X; subst; discriminate].
  cbn [bind]. pose proof (strtol_digits_pos pf ds x (until_nul rest) D1 D2) as S.
  destruct (strtol pf 10 _) as [v n]. simpl in S. rewrite S by (destruct X; subst; reflexivity). eauto.
Qed.
Lemma letter_step s p o rest c : is_letter o -> c <> 44 -> at_ s p (letter o ++ 44 :: rest) ->
  (do x <- char_at s p; Ok (x =? c)) = Ok (is_char o c) /\
  skip_field s p = Ok (p + length (letter o) + 1)%nat.
Proof.
  intros L C A. unfold skip_field. destruct o as [x|]; simpl in *.
  - rewrite (at_char _ _ _ _ A). cbn [bind]. split; [reflexivity|].
    destruct (Z.eqb_spec x 44); [tauto|]. apply (f_equal (@Ok nat)). lia.
  - rewrite (at_char _ _ _ _ A). cbn [bind]. split.
    + destruct (Z.eqb_spec 44 c); [congruence|reflexivity].
    + apply (f_equal (@Ok nat)). rewrite Z.eqb_refl. lia.
Qed.
Lemma letter_char s p o rest : is_letter o -> at_ s p (letter o ++ 44 :: rest) ->
  char_at s p = Ok (match o with Some x => x | None => 44 end).
Proof. intros L A. destruct o; simpl in *; apply (at_char _ _ _ _ A). Qed.
Lemma is_char_match o c : c <> 44 -> (match o with Some x => x | None => 44 end =? c) = is_char o c.
Proof. intros. destruct o; cbn [letter_is]; [reflexivity|]. apply Z.eqb_neq. congruence. Qed.

Lemma at_head a b : at_ (a ++ b) (length a) b.
Proof. split; [rewrite app_length; lia|]. rewrite skipn_app, skipn_all, Nat.sub_diag. reflexivity. Qed.

Lemma rmc_no_star r : rmc_ok r -> ~ In 42 (rmc_payload r).
Proof.
  intros (H1 & H2 & H3 & H4 & H5 & H6 & H7 & H8 & H9 & _ & H10) Hi. unfold rmc_payload, comma in Hi.
  assert (T : forall n, well_formed n -> ~ In 42 (text n)) by (intros; apply text_no; auto; discriminate).
  assert (L : forall o, is_letter o -> ~ In 42 (letter o)) by (intros [c|] Hc E; simpl in *; intuition congruence).
  assert (D : ~ In 42 (r_date r)) by (apply digits_no_nul with (1 := proj1 H9); reflexivity).
  repeat (rewrite ?in_app_iff in Hi; simpl In in Hi).
  repeat match goal with H : well_formed ?n |- _ => pose proof (T _ H); clear H end.
  repeat match goal with H : is_letter ?n |- _ => pose proof (L _ H); clear H end.
  intuition discriminate.
Qed.

Lemma gga_no_star r : gga_ok r -> ~ In 42 (gga_payload r).
Proof.
  intros (H1 & H2 & H3 & H4 & H5 & H6 & _ & H7 & _ & H8 & H9 & H10) Hi. unfold gga_payload, comma in Hi.
  assert (T : forall n, well_formed n -> ~ In 42 (text n)) by (intros; apply text_no; auto; discriminate).
  assert (L : forall o, is_letter o -> ~ In 42 (letter o)) by (intros [c|] Hc E; simpl in *; intuition congruence).
  assert (D : forall d, digits d -> ~ In 42 d) by (intros d [Hd _]; apply digits_no_nul with (1 := Hd); reflexivity).
  repeat (rewrite ?in_app_iff in Hi; simpl In in Hi).
  repeat match goal with H : well_formed ?n |- _ => pose proof (T _ H); clear H end.
  repeat match goal with H : is_letter ?n |- _ => pose proof (L _ H); clear H end.
  repeat match goal with H : digits ?n |- _ => pose proof (D _ H); clear H end.
  intuition discriminate.
Qed.
Lemma gsv_no_star r : gsv_ok r -> ~ In 42 (gsv_payload r).
Proof.
  intros (H1 & H2 & H3 & _ & H4) Hi. unfold gsv_payload, comma in Hi.
  assert (D : forall d, digits d -> ~ In 42 d) by (intros d [Hd _]; apply digits_no_nul with (1 := Hd); reflexivity).
  repeat (rewrite ?in_app_iff in Hi; simpl In in Hi).
  repeat match goal with H : digits ?n |- _ => pose proof (D _ H); clear H end.
  intuition discriminate.
Qed.

Ltac fld A H := rewrite H by eassumption; cbn [bind]; apply at_app in A; apply at_cons in A.

Lemma rmc_decode g r cs more :
  rmc_ok r -> char_plain pf (rmc_payload r) -> hex2 cs more (xor_all (rmc_payload r)) ->
  Z.of_nat (length (sentence (rmc_payload r) cs more)) < 2 ^ 32 ->
  fromNMEA N pf oor lc g (sentence (rmc_payload r) cs more) =
  (do t <- decode_time N oor (fvalue lc (r_time r)) (g_time g);
   let valid := is_char (r_status r) 65 in
   let north := is_char (r_ns r) 78 in
   let east := is_char (r_ew r) 69 in
   Ok (true, Gnss (decode_date (digits_value (r_date r)) t) valid (g_satUsed g) (g_satView g) (g_dilution g)
        (if valid then decode_degrees N north (fvalue lc (r_lat r)) else g_latitude g)
        (if valid then decode_degrees N east (fvalue lc (r_lon r)) else g_longitude g)
        north east (f32 N (fdiv N (fvalue lc (r_speed r)) (knots N))) (fvalue lc (r_course r)) (g_altitude g))).
Proof.
  intros Hok Hp Hx HL.
  pose proof (verify_sentence pf [] (rmc_payload r) cs more _ (fun x => x) (fun x => x) (rmc_no_star r Hok) Hp Hx HL) as V.
  simpl app in V. rewrite Z.eqb_refl in V.
  destruct Hok as (W1 & W2 & W3 & W4 & W5 & W6 & W7 & W8 & W9 & W10 & W11).
  set (s := sentence (rmc_payload r) cs more) in *.
  assert (Es : s = (RMC_HEADER ++ [44]) ++ text (r_time r) ++ 44 :: letter (r_status r) ++ 44 :: text (r_lat r) ++ 44 ::
     letter (r_ns r) ++ 44 :: text (r_lon r) ++ 44 :: letter (r_ew r) ++ 44 :: text (r_speed r) ++ 44 ::
     text (r_course r) ++ 44 :: r_date r ++ 44 :: r_rest r ++ 42 :: cs ++ more).
  { unfold s, sentence, rmc_payload, comma, RMC_HEADER. repeat (simpl app; rewrite <- ?app_assoc). reflexivity. }
  assert (F : find_sub RMC_HEADER s = Some O).
  { rewrite Es. rewrite <- app_assoc. apply find_sub_head. }
  unfold fromNMEA. rewrite F. unfold fromRMC. rewrite V. cbn [bind negb]. rewrite F.
  assert (A := at_head (RMC_HEADER ++ [44]) (text (r_time r) ++ 44 :: letter (r_status r) ++ 44 :: text (r_lat r) ++ 44 ::
     letter (r_ns r) ++ 44 :: text (r_lon r) ++ 44 :: letter (r_ew r) ++ 44 :: text (r_speed r) ++ 44 ::
     text (r_course r) ++ 44 :: r_date r ++ 44 :: r_rest r ++ 42 :: cs ++ more)).
  rewrite <- Es in A. change (length (RMC_HEADER ++ [44])) with (0 + 6 + 1)%nat in A.
  assert (S44 : sep 44) by (left; reflexivity). clearbody s. clear V Hp Hx HL F Es.
  rewrite (num_step _ _ _ _ _ W1 S44 A). cbn [bind]. apply at_app, at_cons in A.
  destruct (decode_time N oor (fvalue lc (r_time r)) (g_time g)) as [t|]; cbn [bind]; [|reflexivity].
  rewrite (letter_char _ _ _ _ W2 A). cbn [bind]. rewrite is_char_match by discriminate.
  rewrite (proj2 (letter_step _ _ _ _ 65 W2 ltac:(discriminate) A)). cbn [bind]. apply at_app, at_cons in A.
  rewrite (num_step _ _ _ _ _ W3 S44 A). cbn [bind]. apply at_app, at_cons in A.
  rewrite (letter_char _ _ _ _ W4 A). cbn [bind]. rewrite is_char_match by discriminate.
  rewrite (proj2 (letter_step _ _ _ _ 65 W4 ltac:(discriminate) A)). cbn [bind]. apply at_app, at_cons in A.
  rewrite (num_step _ _ _ _ _ W5 S44 A). cbn [bind]. apply at_app, at_cons in A.
  rewrite (letter_char _ _ _ _ W6 A). cbn [bind]. rewrite is_char_match by discriminate.
  rewrite (proj2 (letter_step _ _ _ _ 65 W6 ltac:(discriminate) A)). cbn [bind]. apply at_app, at_cons in A.
  rewrite (num_step _ _ _ _ _ W7 S44 A). cbn [bind]. apply at_app, at_cons in A.
  rewrite (num_step _ _ _ _ _ W8 S44 A). cbn [bind]. apply at_app, at_cons in A.
  rewrite (int_step _ _ _ _ _ W9 W10 S44 A). cbn [bind].
  rewrite u32_small by (split; [apply digits_value_nonneg, W9|lia]). reflexivity.
Qed.

Lemma not_header h s t : is_prefix (36 :: h) s = false -> s = 36 :: t -> ~ In 36 t -> find_sub (36 :: h) s = None.
Proof.
  intros P -> H. cbn [find_sub]. rewrite P. rewrite (find_sub_none_in _ _ 36); [reflexivity|left; reflexivity|auto].
Qed.
Lemma hex2_no_dollar cs more v : hex2 cs more v -> ~ In 36 cs.
Proof.
  intros (c1 & c2 & d1 & d2 & -> & E1 & E2 & _) [H|[H|[]]]; subst; discriminate.
Qed.

Lemma gga_decode g r cs more :
  gga_ok r -> char_plain pf (gga_payload r) -> hex2 cs more (xor_all (gga_payload r)) ->
  ~ In 36 (gga_payload r) -> ~ In 36 more ->
  Z.of_nat (length (sentence (gga_payload r) cs more)) < 2 ^ 32 ->
  fromNMEA N pf oor lc g (sentence (gga_payload r) cs more) =
  (do t <- decode_time N oor (fvalue lc (a_time r)) (g_time g);
   let valid := 0 <? digits_value (a_quality r) in
   let north := is_char (a_ns r) 78 in
   let east := is_char (a_ew r) 69 in
   Ok (true, Gnss t valid (digits_value (a_used r)) (g_satView g) (fvalue lc (a_dilution r))
        (if valid then decode_degrees N north (fvalue lc (a_lat r)) else g_latitude g)
        (if valid then decode_degrees N east (fvalue lc (a_lon r)) else g_longitude g)
        north east (g_speed g) (g_course g) (fvalue lc (a_altitude r)))).
Proof.
  intros Hok Hp Hx Hd1 Hd2 HL.
  pose proof (verify_sentence pf [] (gga_payload r) cs more _ (fun x => x) (fun x => x) (gga_no_star r Hok) Hp Hx HL) as V.
  simpl app in V. rewrite Z.eqb_refl in V.
  destruct Hok as (W1 & W2 & W3 & W4 & W5 & W6 & W6' & W7 & W7' & W8 & W9 & W10).
  assert (R : find_sub RMC_HEADER (sentence (gga_payload r) cs more) = None).
  { eapply not_header; [reflexivity|reflexivity|]. intros Hi. apply in_app_or in Hi. destruct Hi as [Hi|[Hi|Hi]]; [auto|discriminate|].
    apply in_app_or in Hi. destruct Hi as [Hi|Hi]; [|auto]. eapply hex2_no_dollar; eauto. }
  set (s := sentence (gga_payload r) cs more) in *.
  assert (Es : s = (GGA_HEADER ++ [44]) ++ text (a_time r) ++ 44 :: text (a_lat r) ++ 44 ::
     letter (a_ns r) ++ 44 :: text (a_lon r) ++ 44 :: letter (a_ew r) ++ 44 :: a_quality r ++ 44 ::
     a_used r ++ 44 :: text (a_dilution r) ++ 44 :: text (a_altitude r) ++ 44 :: a_rest r ++ 42 :: cs ++ more).
  { unfold s, sentence, gga_payload, comma, GGA_HEADER. repeat (simpl app; rewrite <- ?app_assoc). reflexivity. }
  assert (F : find_sub GGA_HEADER s = Some O).
  { rewrite Es. rewrite <- app_assoc. apply find_sub_head. }
  unfold fromNMEA. rewrite R, F. unfold fromGGA. rewrite V. cbn [bind negb]. rewrite F.
  assert (A := at_head (GGA_HEADER ++ [44]) (text (a_time r) ++ 44 :: text (a_lat r) ++ 44 ::
     letter (a_ns r) ++ 44 :: text (a_lon r) ++ 44 :: letter (a_ew r) ++ 44 :: a_quality r ++ 44 ::
     a_used r ++ 44 :: text (a_dilution r) ++ 44 :: text (a_altitude r) ++ 44 :: a_rest r ++ 42 :: cs ++ more)).
  rewrite <- Es in A. change (length (GGA_HEADER ++ [44])) with (0 + 6 + 1)%nat in A.
  assert (S44 : sep 44) by (left; reflexivity). clearbody s. clear V Hp Hx HL F R Es.
  rewrite (num_step _ _ _ _ _ W1 S44 A). cbn [bind]. apply at_app, at_cons in A.
  destruct (decode_time N oor (fvalue lc (a_time r)) (g_time g)) as [t|]; cbn [bind]; [|reflexivity].
  rewrite (num_step _ _ _ _ _ W2 S44 A). cbn [bind]. apply at_app, at_cons in A.
  rewrite (letter_char _ _ _ _ W3 A). cbn [bind]. rewrite is_char_match by discriminate.
  rewrite (proj2 (letter_step _ _ _ _ 65 W3 ltac:(discriminate) A)). cbn [bind]. apply at_app, at_cons in A.
  rewrite (num_step _ _ _ _ _ W4 S44 A). cbn [bind]. apply at_app, at_cons in A.
  rewrite (letter_char _ _ _ _ W5 A). cbn [bind]. rewrite is_char_match by discriminate.
  rewrite (proj2 (letter_step _ _ _ _ 65 W5 ltac:(discriminate) A)). cbn [bind]. apply at_app, at_cons in A.
  rewrite (int_step _ _ _ _ _ W6 W6' S44 A). cbn [bind]. apply at_app, at_cons in A.
  rewrite (int_step _ _ _ _ _ W7 W7' S44 A). cbn [bind]. apply at_app, at_cons in A.
  rewrite (num_step _ _ _ _ _ W8 S44 A). cbn [bind]. apply at_app, at_cons in A.
  rewrite (num_step _ _ _ _ _ W9 S44 A). cbn [bind].
  rewrite !u32_small by (split; [apply digits_value_nonneg; (apply W6 || apply W7)|lia]). reflexivity.
Qed.

Lemma gsv_decode g r cs more :
  gsv_ok r -> char_plain pf (gsv_payload r) -> hex2 cs more (xor_all (gsv_payload r)) ->
  ~ In 36 (gsv_payload r) -> ~ In 36 more ->
  Z.of_nat (length (sentence (gsv_payload r) cs more)) < 2 ^ 32 ->
  fromNMEA N pf oor lc g (sentence (gsv_payload r) cs more) =
   Ok (true, Gnss (g_time g) (g_valid g) (g_satUsed g) (digits_value (v_view r)) (g_dilution g) (g_latitude g) (g_longitude g)
                     (g_north g) (g_east g) (g_speed g) (g_course g) (g_altitude g)).
Proof.
  intros Hok Hp Hx Hd1 Hd2 HL.
  pose proof (verify_sentence pf [] (gsv_payload r) cs more _ (fun x => x) (fun x => x) (gsv_no_star r Hok) Hp Hx HL) as V.
  simpl app in V. rewrite Z.eqb_refl in V.
  destruct Hok as (W1 & W2 & W3 & W3' & W4).
  assert (D : ~ In 36 (gsv_payload r ++ 42 :: cs ++ more)).
  { intros Hi. apply in_app_or in Hi. destruct Hi as [Hi|[Hi|Hi]]; [auto|discriminate|].
    apply in_app_or in Hi. destruct Hi as [Hi|Hi]; [|auto]. eapply hex2_no_dollar; eauto. }
  assert (R : find_sub RMC_HEADER (sentence (gsv_payload r) cs more) = None).
  { eapply not_header; [reflexivity|reflexivity|]. exact D. }
  assert (G : find_sub GGA_HEADER (sentence (gsv_payload r) cs more) = None).
  { eapply not_header; [reflexivity|reflexivity|]. exact D. }
  set (s := sentence (gsv_payload r) cs more) in *.
  assert (Es : s = (GSV_HEADER ++ [44]) ++ v_msgs r ++ 44 :: v_num r ++ 44 :: v_view r ++ 44 :: v_rest r ++ 42 :: cs ++ more).
  { unfold s, sentence, gsv_payload, comma, GSV_HEADER. repeat (simpl app; rewrite <- ?app_assoc). reflexivity. }
  assert (F : find_sub GSV_HEADER s = Some O).
  { rewrite Es. rewrite <- app_assoc. apply find_sub_head. }
  unfold fromNMEA. rewrite R, G, F. unfold fromGSV. rewrite V. cbn [bind negb]. rewrite F.
  assert (A := at_head (GSV_HEADER ++ [44]) (v_msgs r ++ 44 :: v_num r ++ 44 :: v_view r ++ 44 :: v_rest r ++ 42 :: cs ++ more)).
  rewrite <- Es in A. change (length (GSV_HEADER ++ [44])) with (0 + 6 + 1)%nat in A.
  assert (S44 : sep 44) by (left; reflexivity). clearbody s. clear V Hp Hx HL F R G Es.
  destruct (int_step_pos _ _ _ _ _ W1 S44 A) as [v1 E1]. rewrite E1. cbn [bind]. apply at_app, at_cons in A.
  destruct (int_step_pos _ _ _ _ _ W2 S44 A) as [v2 E2]. rewrite E2. cbn [bind]. apply at_app, at_cons in A.
  rewrite (int_step _ _ _ _ _ W3 W3' S44 A). cbn [bind].
  rewrite u32_small by (split; [apply digits_value_nonneg; apply W3|lia]). reflexivity.
Qed.
End Decode.

(** ** reading stays inside the sentence when there are enough separators *)
Definition commas (l : list Z) : nat := length (filter (fun x => x =? 44) l).
Lemma commas_app a b : commas (a ++ b) = (commas a + commas b)%nat.
Proof. unfold commas. rewrite filter_app, app_length. reflexivity. Qed.
Lemma commas_none a : ~ In 44 a -> commas a = O.
Proof.
  unfold commas. induction a as [|x a IH]; intros H; simpl; [reflexivity|].
  destruct (Z.eqb_spec x 44); [subst; exfalso; apply H; left; auto|]. apply IH. intros ?; apply H; right; auto.
Qed.
Lemma commas_pos l : (0 < commas l)%nat -> l <> [].
Proof. destruct l; [unfold commas; simpl; lia|discriminate]. Qed.
Lemma strto_int_no_comma base l : let n := snd (strto_int base l) in (n <= length l)%nat /\ ~ In 44 (firstn n l).
Proof.
  unfold strto_int.
  destruct (take_ws_split l) as [W1 W2]. pose proof (take_ws_length l) as W3.
  destruct (take_ws l) as [n0 l1]. cbn [fst snd] in W1, W2, W3.
  destruct (take_sign l1) as [[neg n1] l2] eqn:Es.
  assert (Hs : exists a, l1 = a ++ l2 /\ length a = n1 /\ ~ In 44 a).
  { unfold take_sign in Es. destruct l1 as [|c l1]; [inversion Es; subst; exists []; auto|].
    destruct (Z.eq_dec c 45) as [->|]; [inversion Es; subst; exists [45]; simpl; intuition discriminate|].
    destruct (Z.eq_dec c 43) as [->|]; [inversion Es; subst; exists [43]; simpl; intuition discriminate|].
    exists []. destruct c as [|p|p]; try (inversion Es; subst; simpl; intuition congruence).
    do 6 (destruct p as [p|p|]; try (inversion Es; subst; simpl; intuition congruence)). }
  destruct (take_0x base l2) as [n2 l3] eqn:Ex.
  assert (Hx : exists a, l2 = a ++ l3 /\ length a = n2 /\ ~ In 44 a).
  { unfold take_0x in Ex. destruct l2 as [|c l2]; [inversion Ex; subst; exists []; auto|].
    destruct (Z.eq_dec c 48) as [->|].
    - destruct l2 as [|x [|d l2]]; try (inversion Ex; subst; exists []; simpl; intuition congruence).
      destruct ((base =? 16) && ((x =? 120) || (x =? 88)) && _) eqn:B; inversion Ex; subst; [exists [48; x]|exists []; simpl; intuition congruence].
      repeat split. intros [H|[H|[]]]; [discriminate|subst].
      rewrite !andb_true_iff in B. destruct B as [[_ B] _]. discriminate.
    - exists []. destruct c as [|p|p]; try (inversion Ex; subst; simpl; intuition congruence).
      do 6 (destruct p as [p|p|]; try (inversion Ex; subst; simpl; intuition congruence)). }
  assert (Hd : forall acc m, exists a r, m = a ++ r /\ length a = snd (take_digits base acc m) /\ ~ In 44 a).
  { intros acc m. revert acc. induction m as [|x m IH]; intros acc; simpl; [exists [], []; auto|].
    destruct (digit_in base x) as [d|] eqn:E; [|exists [], (x :: m); auto].
    destruct (IH (acc * base + d)) as (a & r & -> & L & H). destruct (take_digits base (acc * base + d) (a ++ r)) as [v n].
    exists (x :: a), r. simpl in *. repeat split; [lia|]. intros [->|Hi]; [|auto].
    unfold digit_in in E. discriminate. }
  destruct (Hd 0 l3) as (a3 & r3 & E3 & L3 & H3). destruct (take_digits base 0 l3) as [v n3]. cbn [snd] in L3.
  destruct Hs as (a1 & E1 & L1 & H1). destruct Hx as (a2 & E2 & L2 & H2).
  destruct n3 as [|n3]; [simpl; split; [lia|tauto]|].
  cbn [snd]. assert (Ln : length (firstn n0 l) = n0) by (apply firstn_length_le; lia).
  set (k := (n0 + n1 + n2 + S n3)%nat).
  assert (El : l = (firstn n0 l ++ a1 ++ a2 ++ a3) ++ r3).
  { rewrite W1 at 1. rewrite E1, E2, E3. rewrite <- !app_assoc. reflexivity. }
  assert (Lk : length (firstn n0 l ++ a1 ++ a2 ++ a3) = k) by (rewrite !app_length, Ln; unfold k; lia).
  set (q := firstn n0 l ++ a1 ++ a2 ++ a3) in *.
  assert (Hq : ~ In 44 q).
  { unfold q. intros Hi. rewrite !in_app_iff in Hi. destruct Hi as [Hi|[Hi|[Hi|Hi]]]; auto. apply W2 in Hi. discriminate. }
  clearbody q. rewrite El, app_length. split; [lia|].
  rewrite <- Lk, firstn_app, firstn_all, Nat.sub_diag. simpl. rewrite app_nil_r. exact Hq.
Qed.

Section Safe.
Context (N : Num) (pf : platform) (oor : conv_policy) (lc : libc N) (Hb : strtof_bounded lc).

(** at least k commas remain at p *)
Definition remain (s : list Z) (p k : nat) : Prop := (p <= length s)%nat /\ (k <= commas (skipn p s))%nat.
Lemma remain_advance s p k n : remain s p k -> (n <= length (skipn p s))%nat -> ~ In 44 (firstn n (skipn p s)) ->
  remain s (p + n) k.
Proof.
  intros [H1 H2] L H3. rewrite skipn_length in L. split; [lia|].
  rewrite <- skipn_skipn'. rewrite <- (firstn_skipn n (skipn p s)), commas_app, commas_none in H2 by auto. exact H2.
Qed.
Lemma remain_next s p k : remain s p (S k) -> remain s (p + 1) k.
Proof.
  intros [H1 H2]. assert (L := skipn_length p s). unfold remain. rewrite <- skipn_skipn'.
  destruct (skipn p s) as [|x t] eqn:E; [unfold commas in H2; simpl in H2; lia|].
  simpl in L. split; [lia|]. simpl. unfold commas in *. simpl in H2. destruct (x =? 44); simpl in H2; lia.
Qed.
Lemma strtof_remain s p k : remain s p k -> exists v p', strtof_at N lc s p = Ok (v, p') /\ remain s p' k.
Proof.
  intros R. assert (R' := R). destruct R' as [H1 H2]. unfold strtof_at, cstr_at. destruct (Nat.leb_spec p (length s)); [|lia].
  cbn [bind]. destruct (Hb (until_nul (skipn p s))) as [B1 B2].
  destruct (strtof lc (until_nul (skipn p s))) as [v n]. cbn [snd] in *.
  exists v, (p + n)%nat. split; [reflexivity|]. pose proof (until_nul_length (skipn p s)).
  apply remain_advance; auto; [lia|]. rewrite <- until_nul_firstn by lia. intros Hi. apply B2 in Hi. tauto.
Qed.
Lemma strtol_remain s p k : remain s p k -> exists v p', strtol_at pf s p = Ok (v, p') /\ remain s p' k.
Proof.
  intros R. assert (R' := R). destruct R' as [H1 H2]. unfold strtol_at, cstr_at. destruct (Nat.leb_spec p (length s)); [|lia].
  cbn [bind]. destruct (strto_int_no_comma 10 (until_nul (skipn p s))) as [B1 B2].
  unfold strtol. destruct (strto_int 10 (until_nul (skipn p s))) as [[neg v] n]. cbn [snd] in *.
  eexists _, (p + n)%nat. split; [reflexivity|]. pose proof (until_nul_length (skipn p s)).
  apply remain_advance; auto; [lia|]. rewrite <- until_nul_firstn by lia. auto.
Qed.
Lemma char_remain s p k : remain s p k -> exists c, char_at s p = Ok c.
Proof. intros [H1 _]. unfold char_at. rewrite (rd_inb _ _ 0) by (rewrite app_length; simpl; lia). eauto. Qed.
Lemma skip_remain s p k : remain s p (S k) -> exists p', skip_field s p = Ok p' /\ remain s p' k.
Proof.
  intros R. unfold skip_field. assert (R' := R). destruct R' as [H1 H2].
  assert (L := skipn_length p s). destruct (skipn p s) as [|x t] eqn:E; [unfold commas in H2; simpl in H2; lia|].
  rewrite (at_char s p x t) by (split; auto). cbn [bind]. simpl in L.
  destruct (Z.eqb_spec x 44).
  - exists (p + 1)%nat. split; auto. apply remain_next. exact R.
  - exists (p + 2)%nat. split; auto. replace (p + 2)%nat with (p + 1 + 1)%nat by lia.
    apply remain_next. apply remain_advance; auto; rewrite E; simpl; [lia|]. intros [?|[]]; auto.
Qed.

Definition no_oob {A} (r : res A) : Prop := forall u, r = UB u -> u <> OobRead /\ u <> OobWrite /\ u <> UninitRead.
Lemma no_oob_ok {A} (a : A) : no_oob (Ok a). Proof. intros u H; discriminate. Qed.
Lemma no_oob_bind {A B} (r : res A) (f : A -> res B) : no_oob r -> (forall a, r = Ok a -> no_oob (f a)) -> no_oob (bind r f).
Proof. intros H1 H2. destruct r as [a|u]; simpl; [apply H2; auto|]. intros v E. inversion E; subst. apply H1; auto. Qed.
Definition policy_ok := forall z, no_oob (oor z).
Context (Hpol : policy_ok).
Lemma to_i32_no_oob x : no_oob (to_i32 N oor x).
Proof.
  unfold to_i32. destruct (ftrunc N x); [|intros u E; inversion E; repeat split; discriminate].
  destruct (_ && _); [apply no_oob_ok|apply Hpol].
Qed.
Lemma decode_time_no_oob raw t : no_oob (decode_time N oor raw t).
Proof. unfold decode_time. repeat (apply no_oob_bind; [apply to_i32_no_oob|intros ? _]). apply no_oob_ok. Qed.

Ltac go R := first
  [ match goal with |- no_oob (bind (strtof_at _ _ _ _) _) =>
      let v := fresh "v" in let p := fresh "p" in let E := fresh "E" in
      destruct (strtof_remain _ _ _ R) as (v & p & E & R'); rewrite E; cbn [bind]; clear R E; rename R' into R end
  | match goal with |- no_oob (bind (strtol_at _ _ _) _) =>
      let v := fresh "v" in let p := fresh "p" in let E := fresh "E" in
      destruct (strtol_remain _ _ _ R) as (v & p & E & R'); rewrite E; cbn [bind]; clear R E; rename R' into R end
  | match goal with |- no_oob (bind (decode_time _ _ _ _) _) => apply no_oob_bind; [apply decode_time_no_oob|intros ? _]; apply remain_next in R end
  | match goal with |- no_oob (bind (char_at _ _) _) =>
      let c := fresh "c" in let E := fresh "E" in
      destruct (char_remain _ _ _ R) as (c & E); rewrite E; cbn [bind]; clear E end
  | match goal with |- no_oob (bind (skip_field _ _) _) =>
      let p := fresh "p" in let E := fresh "E" in
      destruct (skip_remain _ _ _ R) as (p & E & R'); rewrite E; cbn [bind]; clear R E; rename R' into R end ].

Context (s : list Z) (Hw : w64 pf = false) (HL : Z.of_nat (length s) < 2 ^ 32).
Lemma start_remain h pos k : find_sub h s = Some pos -> length h = 6%nat -> (S k <= commas (skipn (pos + 6) s))%nat ->
  remain s (pos + 6 + 1) k.
Proof.
  intros F L K. apply remain_next. split; auto. apply find_sub_split in F. destruct F as (a & b & -> & <-).
  rewrite !app_length. lia.
Qed.
Lemma rmc_safe g : (forall pos, find_sub RMC_HEADER s = Some pos -> (9 <= commas (skipn (pos + 6) s))%nat) ->
  no_oob (fromRMC N pf oor lc g s).
Proof.
  intros H. unfold fromRMC. destruct (verify_total pf s Hw HL) as [b ->]. cbn [bind].
  destruct (negb b); [apply no_oob_ok|]. destruct (find_sub RMC_HEADER s) as [pos|] eqn:F; [|apply no_oob_ok].
  pose proof (start_remain RMC_HEADER pos 8 F eq_refl (H pos eq_refl)) as R.
  go R. go R. go R. go R. go R. apply remain_next in R. go R. go R. go R. apply remain_next in R. go R. go R. go R. apply remain_next in R. go R. apply remain_next in R. go R. apply no_oob_ok.
Qed.
Lemma gga_safe g : (forall pos, find_sub GGA_HEADER s = Some pos -> (9 <= commas (skipn (pos + 6) s))%nat) ->
  no_oob (fromGGA N pf oor lc g s).
Proof.
  intros H. unfold fromGGA. destruct (verify_total pf s Hw HL) as [b ->]. cbn [bind].
  destruct (negb b); [apply no_oob_ok|]. destruct (find_sub GGA_HEADER s) as [pos|] eqn:F; [|apply no_oob_ok].
  pose proof (start_remain GGA_HEADER pos 8 F eq_refl (H pos eq_refl)) as R.
  go R. go R. go R. apply remain_next in R. go R. go R. go R. apply remain_next in R. go R. go R. go R. apply remain_next in R. go R.
  apply remain_next in R. go R. apply remain_next in R. go R. apply no_oob_ok.
Qed.
Lemma gsv_safe g : (forall pos, find_sub GSV_HEADER s = Some pos -> (3 <= commas (skipn (pos + 6) s))%nat) ->
  no_oob (fromGSV N pf g s).
Proof.
  intros H. unfold fromGSV. destruct (verify_total pf s Hw HL) as [b ->]. cbn [bind].
  destruct (negb b); [apply no_oob_ok|]. destruct (find_sub GSV_HEADER s) as [pos|] eqn:F; [|apply no_oob_ok].
  pose proof (start_remain GSV_HEADER pos 2 F eq_refl (H pos eq_refl)) as R.
  go R. apply remain_next in R. go R. apply remain_next in R. go R. apply no_oob_ok.
Qed.
Lemma nmea_safe g :
  (forall pos, find_sub RMC_HEADER s = Some pos -> (9 <= commas (skipn (pos + 6) s))%nat) ->
  (forall pos, find_sub GGA_HEADER s = Some pos -> (9 <= commas (skipn (pos + 6) s))%nat) ->
  (forall pos, find_sub GSV_HEADER s = Some pos -> (3 <= commas (skipn (pos + 6) s))%nat) ->
  no_oob (fromNMEA N pf oor lc g s).
Proof.
  intros. unfold fromNMEA. destruct (find_sub RMC_HEADER s) eqn:?; [apply rmc_safe; intros; apply H; congruence|].
  destruct (find_sub GGA_HEADER s) eqn:?; [apply gga_safe; intros; apply H0; congruence|].
  destruct (find_sub GSV_HEADER s) eqn:?; [apply gsv_safe; intros; apply H1; congruence|]. apply no_oob_ok.
Qed.
End Safe.
