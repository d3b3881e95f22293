(** Proofs about the NMEA parser: checksum, rejection, structure of accepted sentences, buffers. *)
From Verif Require Import Base Num M_Libc M_Helper M_Gnss S_Gnss P_Libc.

(** ** checksum *)
Lemma xor_range_run pf (a b c : list Z) acc :
  xor_range pf (a ++ b ++ c) (length a) (length b) acc = Ok (fold_left Z.lxor (map (char_u32 pf) b) acc).
Proof.
  revert a acc; induction b as [|x b IH]; intros a acc; [reflexivity|].
  cbn [length xor_range map fold_left].
  assert (E : char_at (a ++ (x :: b) ++ c) (length a) = Ok x).
  { unfold char_at. apply rd_ok. rewrite <- app_assoc, nth_error_app2 by lia. rewrite Nat.sub_diag. reflexivity. }
  rewrite E. cbn [bind].
  specialize (IH (a ++ [x]) (Z.lxor acc (char_u32 pf x))).
  rewrite app_length, Nat.add_comm in IH. cbn [length Nat.add] in IH.
  rewrite <- IH. f_equal. rewrite <- app_assoc. reflexivity.
Qed.

(** [char_plain]: no byte is affected by the signedness of char *)
Definition char_plain (pf : platform) (l : list Z) : Prop := char_signed pf = false \/ Forall (fun b => b < 128) l.
Lemma char_plain_map pf l : char_plain pf l -> map (char_u32 pf) l = l.
Proof.
  intros H. rewrite <- (map_id l) at 2. apply map_ext_in. intros x Hx. unfold char_u32.
  destruct H as [-> |H]; [reflexivity|]. rewrite Forall_forall in H. apply H in Hx.
  destruct (Z.leb_spec 128 x); [lia|]. rewrite andb_false_r. reflexivity.
Qed.

Lemma u32_small x : 0 <= x < 2 ^ 32 -> u32 x = x.
Proof. intros. unfold u32. apply Z.mod_small. lia. Qed.

Lemma verify_general pf pre payload tail :
  ~ In 36 pre -> ~ In 42 pre -> ~ In 42 payload ->
  Z.of_nat (length (pre ++ 36 :: payload ++ 42 :: tail)) < 2 ^ 32 ->
  verifyChecksum pf (pre ++ 36 :: payload ++ 42 :: tail) =
  Ok (u32 (fst (strtol pf 16 (until_nul tail))) =? fold_left Z.lxor (map (char_u32 pf) payload) 0).
Proof.
  intros H1 H2 H3 HL.
  rewrite !app_length in HL. cbn [length] in HL. rewrite app_length in HL. cbn [length] in HL.
  unfold verifyChecksum.
  rewrite (find_char_app 36 pre) by auto.
  assert (E : find_char 42 (pre ++ 36 :: payload ++ 42 :: tail) = Some (length pre + 1 + length payload)%nat).
  { replace (pre ++ 36 :: payload ++ 42 :: tail) with ((pre ++ 36 :: payload) ++ 42 :: tail) by (rewrite <- app_assoc; reflexivity).
    rewrite find_char_app.
    - rewrite app_length. f_equal. simpl. lia.
    - intros Hi. apply in_app_or in Hi. destruct Hi as [Hi|[Hi|Hi]]; auto. discriminate. }
  rewrite E. cbn [is_npos orb pos32].
  rewrite (u32_small (Z.of_nat (length pre))) by lia.
  rewrite (u32_small (Z.of_nat (length pre) + 1)) by lia.
  rewrite (u32_small (Z.of_nat (length pre + 1 + length payload))) by lia.
  rewrite (at_cstr _ _ tail).
  2:{ replace (Z.to_nat _) with (Nat.add 0 (length (pre ++ 36 :: payload ++ [42]))) by (rewrite !app_length; simpl; rewrite app_length; simpl; lia).
      apply at_app. split; [lia|]. simpl. rewrite <- app_assoc. simpl. rewrite <- app_assoc. reflexivity. }
  cbn [bind].
  replace (Z.to_nat (Z.of_nat (length pre) + 1)) with (length (pre ++ [36])) by (rewrite app_length; simpl; lia).
  replace (Z.to_nat _) with (length payload) by lia.
  replace (pre ++ 36 :: payload ++ 42 :: tail) with ((pre ++ [36]) ++ payload ++ 42 :: tail) by (rewrite <- app_assoc; reflexivity).
  rewrite xor_range_run. reflexivity.
Qed.

Lemma hex2_strtol pf cs more v : hex2 cs more v -> u32 (fst (strtol pf 16 (until_nul (cs ++ more)))) = v /\ 0 <= v < 256.
Proof.
  intros (c1 & c2 & d1 & d2 & -> & E1 & E2 & -> & Hm).
  pose proof (digit_in_16 _ _ E1) as (_ & _ & _ & _ & N1 & R1). pose proof (digit_in_16 _ _ E2) as (_ & _ & _ & _ & N2 & R2).
  cbn [app until_nul]. destruct (Z.eqb_spec c1 0); [contradiction|]. destruct (Z.eqb_spec c2 0); [contradiction|].
  unfold strtol.
  assert (S : strto_int 16 ([c1; c2] ++ until_nul more) = (false, hexval [c1; c2], 2%nat)).
  { apply strto_int_hex; [unfold hexdigits; simpl; rewrite E1, E2; reflexivity|discriminate| |discriminate].
    destruct more as [|x more]; simpl; auto. destruct (x =? 0); auto. }
  simpl app in S. rewrite S. unfold hexval. simpl fold_left. rewrite E1, E2.
  cbn [fst]. rewrite Z.min_l by (unfold long_max; destruct (w64 pf); lia). rewrite u32_small by lia. split; lia.
Qed.

Lemma verify_sentence pf pre payload cs more v :
  ~ In 36 pre -> ~ In 42 pre -> ~ In 42 payload -> char_plain pf payload -> hex2 cs more v ->
  Z.of_nat (length (pre ++ sentence payload cs more)) < 2 ^ 32 ->
  verifyChecksum pf (pre ++ sentence payload cs more) = Ok (v =? xor_all payload).
Proof.
  intros. unfold sentence in *. rewrite verify_general by auto.
  rewrite char_plain_map by auto. rewrite (proj1 (hex2_strtol pf cs more v ltac:(auto))). reflexivity.
Qed.

Lemma fold_lxor l acc : fold_left Z.lxor l acc = Z.lxor acc (xor_all l).
Proof.
  unfold xor_all. revert acc; induction l as [|x l IH]; intros acc; simpl; [rewrite Z.lxor_0_r; reflexivity|].
  rewrite IH, (IH x), Z.lxor_assoc. reflexivity.
Qed.
Lemma xor_all_change a x y b : x <> y -> xor_all (a ++ x :: b) <> xor_all (a ++ y :: b).
Proof.
  intros H E. unfold xor_all in E. rewrite !fold_left_app in E. simpl in E.
  rewrite !fold_lxor in E. apply H.
  assert (forall u v w, Z.lxor (Z.lxor u v) w = Z.lxor v (Z.lxor u w)) as C.
  { intros. rewrite (Z.lxor_comm u v), Z.lxor_assoc. reflexivity. }
  rewrite (Z.lxor_assoc 0 (xor_all a) x), (Z.lxor_assoc 0 (xor_all a) y), !Z.lxor_0_l in E.
  rewrite !C in E.
  assert (K : forall u w, Z.lxor (Z.lxor u w) w = u) by (intros; rewrite Z.lxor_assoc, Z.lxor_nilpotent, Z.lxor_0_r; reflexivity).
  rewrite <- (K x (Z.lxor (xor_all a) (xor_all b))), E, K. reflexivity.
Qed.

Lemma char_u32_inj pf x y : is_byte x -> is_byte y -> char_u32 pf x = char_u32 pf y -> x = y.
Proof.
  unfold is_byte, char_u32, u32. intros. destruct (char_signed pf); simpl in *; auto.
  destruct (Z.leb_spec 128 x), (Z.leb_spec 128 y); auto.
  - replace (x - 256) with (x + 4294967040 + (-1) * 4294967296) in H1 by lia.
    replace (y - 256) with (y + 4294967040 + (-1) * 4294967296) in H1 by lia.
    rewrite !Z_mod_plus_full, !Z.mod_small in H1 by lia. lia.
  - replace (x - 256) with (x + 4294967040 + (-1) * 4294967296) in H1 by lia.
    rewrite !Z_mod_plus_full, !Z.mod_small in H1 by lia. lia.
  - replace (y - 256) with (y + 4294967040 + (-1) * 4294967296) in H1 by lia.
    rewrite !Z_mod_plus_full, !Z.mod_small in H1 by lia. lia.
Qed.

(** one wrong payload byte, any platform, any checksum text *)
Lemma verify_change pf pre a x y b tail :
  ~ In 36 pre -> ~ In 42 pre -> ~ In 42 (a ++ x :: b) -> y <> 42 -> x <> y -> is_byte x -> is_byte y ->
  Z.of_nat (length (pre ++ 36 :: (a ++ x :: b) ++ 42 :: tail)) < 2 ^ 32 ->
  verifyChecksum pf (pre ++ 36 :: (a ++ x :: b) ++ 42 :: tail) = Ok true ->
  verifyChecksum pf (pre ++ 36 :: (a ++ y :: b) ++ 42 :: tail) = Ok false.
Proof.
  intros H1 H2 H3 Hy Hxy Bx By HL H.
  rewrite verify_general in H by auto.
  rewrite verify_general; auto.
  - inversion H as [E]. f_equal. apply Z.eqb_eq in E. apply Z.eqb_neq. rewrite E.
    rewrite !map_app. simpl map. apply xor_all_change. intros C. apply Hxy. eapply char_u32_inj; eauto.
  - intros Hi. apply H3. apply in_app_or in Hi. apply in_or_app. destruct Hi as [Hi|[Hi|Hi]]; [tauto|congruence|right; right; auto].
  - replace (length (pre ++ 36 :: (a ++ y :: b) ++ 42 :: tail)) with (length (pre ++ 36 :: (a ++ x :: b) ++ 42 :: tail)); auto.
    rewrite !app_length. cbn [length]. rewrite !app_length. reflexivity.
Qed.

Lemma verify_missing pf s : w64 pf = false -> ~ In 36 s \/ ~ In 42 s -> verifyChecksum pf s = Ok false.
Proof.
  intros Hw H. unfold verifyChecksum.
  assert (E : is_npos pf (find_char 36 s) || is_npos pf (find_char 42 s) = true).
  { destruct H as [H|H]; apply find_char_none in H; rewrite H; cbn [is_npos]; rewrite Hw; rewrite ?orb_true_r; reflexivity. }
  rewrite E. reflexivity.
Qed.
Lemma verify_missing_star_64 pf s : w64 pf = true -> ~ In 42 s -> Z.of_nat (length s) < 2 ^ 32 ->
  verifyChecksum pf s = UB OobRead.
Proof.
  intros Hw H HL. unfold verifyChecksum. rewrite (proj2 (find_char_none 42 s) H).
  assert (E : is_npos pf (find_char 36 s) || is_npos pf None = false).
  { cbn [is_npos]. rewrite Hw. destruct (find_char 36 s); cbn [is_npos]; rewrite ?Hw; reflexivity. }
  rewrite E. unfold cstr_at. cbn [pos32].
  destruct (Nat.leb_spec (Z.to_nat (4294967295 + 1)) (length s)); [lia|]. reflexivity.
Qed.
(** '*' before '$': accepted exactly when the number behind '*' is 0 *)
Lemma verify_reversed pf pre mid tail : ~ In 36 pre -> ~ In 42 pre -> ~ In 36 mid ->
  Z.of_nat (length (pre ++ 42 :: mid ++ 36 :: tail)) < 2 ^ 32 ->
  verifyChecksum pf (pre ++ 42 :: mid ++ 36 :: tail) =
  Ok (u32 (fst (strtol pf 16 (until_nul (mid ++ 36 :: tail)))) =? 0).
Proof.
  intros H1 H2 H3 HL. unfold verifyChecksum.
  rewrite (find_char_app 42 pre) by auto.
  assert (E : find_char 36 (pre ++ 42 :: mid ++ 36 :: tail) = Some (length pre + 1 + length mid)%nat).
  { replace (pre ++ 42 :: mid ++ 36 :: tail) with ((pre ++ 42 :: mid) ++ 36 :: tail) by (rewrite <- app_assoc; reflexivity).
    rewrite find_char_app.
    - rewrite app_length. f_equal. simpl. lia.
    - intros Hi. apply in_app_or in Hi. destruct Hi as [Hi|[Hi|Hi]]; auto. discriminate. }
  rewrite E. cbn [is_npos orb pos32].
  rewrite !app_length in HL. cbn [length] in HL. rewrite app_length in HL. cbn [length] in HL.
  rewrite (u32_small (Z.of_nat (length pre))) by lia.
  rewrite (u32_small (Z.of_nat (length pre + 1 + length mid))) by lia.
  rewrite (u32_small (Z.of_nat (length pre + 1 + length mid) + 1)) by lia.
  rewrite (at_cstr _ _ (mid ++ 36 :: tail)).
  2:{ replace (Z.to_nat _) with (Nat.add 0 (length (pre ++ [42]))) by (rewrite !app_length; simpl; lia).
      apply at_app. split; [lia|]. simpl. rewrite <- app_assoc. reflexivity. }
  cbn [bind]. replace (Z.to_nat (Z.of_nat (length pre) - _)) with O by lia. reflexivity.
Qed.

(** verifyChecksum is total on the device *)
Lemma xor_range_ok pf s n : forall i acc, (i + n <= length s)%nat -> exists v, xor_range pf s i n acc = Ok v.
Proof.
  induction n; intros i acc H; simpl; [eauto|].
  unfold char_at. rewrite (rd_inb _ _ 0) by (rewrite app_length; simpl; lia). cbn [bind]. apply IHn. lia.
Qed.
Lemma verify_total pf s : w64 pf = false -> Z.of_nat (length s) < 2 ^ 32 -> exists b, verifyChecksum pf s = Ok b.
Proof.
  intros Hw HL. unfold verifyChecksum.
  destruct (find_char 36 s) as [a|] eqn:Ea; destruct (find_char 42 s) as [b|] eqn:Eb;
    cbn [is_npos]; rewrite ?Hw; simpl orb; cbn [negb]; eauto.
  apply find_char_bound in Ea, Eb. cbn [pos32]. rewrite (u32_small (Z.of_nat a)), (u32_small (Z.of_nat b)), (u32_small (Z.of_nat a + 1)) by lia.
  unfold cstr_at. destruct (Nat.leb_spec (Z.to_nat (Z.of_nat b + 1)) (length s)); [|lia]. cbn [bind].
  destruct (xor_range_ok pf s (Z.to_nat (Z.of_nat b - (Z.of_nat a + 1))) (Z.to_nat (Z.of_nat a + 1)) 0) as [v E]; [lia|].
  rewrite E. cbn [bind]. eauto.
Qed.

(** ** rejection leaves the state alone *)
Ltac step_bind H := match type of H with
  | bind ?r _ = Ok _ => let x := fresh "x" in destruct r as [x|] eqn:?; cbn [bind] in H; [|discriminate H]
  | (let '(_, _) := ?p in _) = _ => destruct p; cbv beta iota in H
  end.
Section Reject.
Context (N : Num) (pf : platform) (oor : conv_policy) (lc : libc N).
Notation fromRMC := (fromRMC N pf oor lc). Notation fromGGA := (fromGGA N pf oor lc). Notation fromGSV := (fromGSV N pf).
Lemma rmc_false g s g' : fromRMC g s = Ok (false, g') -> g' = g.
Proof.
  unfold M_Gnss.fromRMC. destruct (verifyChecksum pf s) as [[|]|]; cbn [bind negb]; [|intros H; inversion H; auto|discriminate].
  destruct (find_sub RMC_HEADER s); [|intros H; inversion H; auto].
  intros H. repeat step_bind H. inversion H.
Qed.
Lemma gga_false g s g' : fromGGA g s = Ok (false, g') -> g' = g.
Proof.
  unfold M_Gnss.fromGGA. destruct (verifyChecksum pf s) as [[|]|]; cbn [bind negb]; [|intros H; inversion H; auto|discriminate].
  destruct (find_sub GGA_HEADER s); [|intros H; inversion H; auto].
  intros H. repeat step_bind H. inversion H.
Qed.
Lemma gsv_false g s g' : fromGSV g s = Ok (false, g') -> g' = g.
Proof.
  unfold M_Gnss.fromGSV. destruct (verifyChecksum pf s) as [[|]|]; cbn [bind negb]; [|intros H; inversion H; auto|discriminate].
  destruct (find_sub GSV_HEADER s); [|intros H; inversion H; auto].
  intros H. repeat step_bind H. inversion H.
Qed.
Lemma nmea_false g s g' : fromNMEA N pf oor lc g s = Ok (false, g') -> g' = g.
Proof.
  unfold fromNMEA. destruct (find_sub RMC_HEADER s); [apply rmc_false|].
  destruct (find_sub GGA_HEADER s); [apply gga_false|].
  destruct (find_sub GSV_HEADER s); [apply gsv_false|]. intros H; inversion H; auto.
Qed.
(** an accepted sentence has passed the checksum *)
Lemma nmea_true g s g' : fromNMEA N pf oor lc g s = Ok (true, g') -> verifyChecksum pf s = Ok true.
Proof.
  unfold fromNMEA, M_Gnss.fromRMC, M_Gnss.fromGGA, M_Gnss.fromGSV.
  destruct (verifyChecksum pf s) as [[|]|]; cbn [bind negb]; [auto| |];
  destruct (find_sub RMC_HEADER s); destruct (find_sub GGA_HEADER s); destruct (find_sub GSV_HEADER s); discriminate.
Qed.
Lemma loop_count fuel : forall s e n g n' g', buffer_loop N pf oor lc fuel s e n g = Ok (n', g') -> n <= n' /\ (n' = n -> g' = g).
Proof.
  induction fuel; intros s e n g n' g' H; simpl in H; [discriminate|].
  destruct (find_from 36 s e); [|inversion H; split; auto; lia].
  destruct (find_from 10 s (e + 1)); [|inversion H; split; auto; lia].
  destruct (fromNMEA N pf oor lc g (substr s n0 n1)) as [[b g1]|] eqn:E; cbn [bind] in H; [|discriminate].
  apply IHfuel in H. destruct H as [H1 H2]. destruct b.
  - split; [lia|intros; lia].
  - apply nmea_false in E. subst. auto.
Qed.
End Reject.
