(** handleRequest, for every arithmetic. *)
From Verif Require Import Base Num M_Libc M_Linalg M_Helper M_Alignment M_Telescope M_Gnss M_NexStar S_NexStar P_Libc.

Section P.
Context (N : Num) (T : Trig N) (pf : platform) (oor : conv_policy).
Context (qsort : list (vpair N) -> list (vpair N)) (m9 : res (F N)) (junk : option (F N * F N)).
Notation handle := (handleRequest N T pf oor qsort m9 junk).

Lemma rd_cons {A} (x : A) l i : rd (x :: l) (S i) = rd l i. Proof. reflexivity. Qed.
Lemma cmd_cons c r len n L : cmd (c :: r) len n L = Ok ((n <=? len) && (c =? L)).
Proof. unfold cmd, andr, byte_is. cbn [bind rd nth_error]. destruct (n <=? len); reflexivity. Qed.
Lemma cmd_nil n L : 1 <= n -> cmd [] 0 n L = Ok false.
Proof. intros. unfold cmd, andr. cbn [bind]. replace (n <=? 0) with false by (symmetry; apply Z.leb_gt; lia). reflexivity. Qed.
Lemma cmd_nil' extra n L : 1 <= n -> cmd ([] ++ extra) 0 n L = Ok false.
Proof. intros. unfold cmd, andr. cbn [bind]. replace (n <=? 0) with false by (symmetry; apply Z.leb_gt; lia). reflexivity. Qed.

Definition device (d : Z) : bool := (d =? 0x10) || (d =? 0x11) || (d =? 0xb0) || (d =? 0xb2).
Lemma device_in d : device d = true <-> In d [0x10; 0x11; 0xb0; 0xb2].
Proof. unfold device. rewrite !orb_true_iff, !Z.eqb_eq. cbn. intuition. Qed.
(** pure version of the 'P' test *)
Definition pP (req : list Z) : bool :=
  match req with
  | c0 :: c1 :: c2 :: c3 :: c4 :: c5 :: c6 :: c7 :: _ =>
      (c0 =? 80) && (c1 =? 1) && device c2 && (c3 =? 0xfe) && (c4 =? 0) && (c5 =? 0) && (c6 =? 0) && (c7 =? 2)
  | _ => false
  end.
Lemma is_P_spec req extra : is_P (req ++ extra) (Z.of_nat (length req)) = Ok (pP req).
Proof.
  unfold is_P, cmd.
  destruct req as [|c0 [|c1 [|c2 [|c3 [|c4 [|c5 [|c6 [|c7 r]]]]]]]]; try reflexivity.
  replace (8 <=? _) with true by (symmetry; apply Z.leb_le; cbn [length]; lia).
  cbn [andr bind byte_is rd nth_error app pP]. unfold byte_is, device. cbn [rd nth_error bind].
  destruct (c0 =? 80); [|reflexivity]. destruct (c1 =? 1); [|reflexivity]. cbn [bind andb].
  destruct ((c2 =? 16) || _ || _ || _); [|reflexivity].
  destruct (c3 =? 254); [|reflexivity]. destruct (c4 =? 0); [|reflexivity]. destruct (c5 =? 0); [|reflexivity].
  destruct (c6 =? 0); reflexivity.
Qed.

Lemma pP_not c r : c =? 80 = false -> pP (c :: r) = false.
Proof. intros H. destruct r as [|? [|? [|? [|? [|? [|? [|? ?]]]]]]]; try reflexivity. unfold pP. rewrite H. reflexivity. Qed.
(** what each request does, without the memory reads *)
Inductive action := AReply (text : list Z) | ALocation | APosition | ASync | ANone.
Definition act (t : telescope N) (g : gnss N) (req : list Z) : action :=
  match req with
  | [] => ANone
  | c :: r =>
      if (c =? 75) && negb (match r with [] => true | _ => false end) then AReply (pc (match r with x :: _ => x | [] => 0 end) ++ [35])
      else if c =? 86 then AReply (pc 4 ++ pc 10 ++ [35])
      else if pP req then AReply (pc 1 ++ pc 0 ++ [35])
      else if c =? 109 then AReply (pc 12 ++ [35])
      else if c =? 119 then ALocation
      else if c =? 101 then APosition
      else if c =? 104 then
        let u := g_time g in
        AReply (pc (tm_hour u) ++ pc (tm_min u) ++ pc (tm_sec u) ++ pc (tm_mon u) ++ pc (tm_mday u) ++
                      pc (tm_year u - 2000) ++ pc 0 ++ pc 0 ++ [35])
      else if c =? 76 then AReply (pc 0 ++ [35])
      else if c =? 74 then AReply (pc (b2z (t_cal t)) ++ [35])
      else if c =? 116 then AReply (pc 1 ++ [35])
      else if (c =? 115) && (17 <=? length r)%nat then ASync
      else ANone
  end.
Definition reads8 (mem : list Z) : res Z :=
  if arduino pf then
             do _ <- rd mem 0; do _ <- rd mem 1; do _ <- rd mem 2; do _ <- rd mem 3;
             do _ <- rd mem 4; do _ <- rd mem 5; do _ <- rd mem 6; rd mem 7
           else Ok 0.
Definition perform (t : telescope N) (g : gnss N) (mem resp : list Z) (max : Z) (a : action) : res (Z * list Z * telescope N) :=
  match a with
  | AReply text => reply N t resp max text
  | ALocation =>
      do d1 <- degrees_byte N oor (g_latitude g); do m1 <- minutes_byte N oor (g_latitude g);
      do d2 <- degrees_byte N oor (g_longitude g); do m2 <- minutes_byte N oor (g_longitude g);
      reply N t resp max (pc d1 ++ pc m1 ++ pc 0 ++ pc (b2z (negb (g_north g))) ++
                      pc d2 ++ pc m2 ++ pc 0 ++ pc (b2z (negb (g_east g))) ++ [35])
  | APosition =>
      do '(q, _) <- calibratedEquatorial N T t (g_latitude g) (lst_of N g);
      do w1 <- word_of N oor (ra q); do w2 <- word_of N oor (dec q);
      reply N t resp max (hex8 w1 ++ [44] ++ hex8 w2 ++ [35])
  | ASync => do t' <- do_sync N T pf qsort m9 junk t g mem; reply N t' resp max [35]
  | ANone => do _ <- reads8 mem; Ok (0, resp, t)
  end.
Lemma handle_act t g req extra resp max :
  handle t g (req ++ extra) (Z.of_nat (length req)) resp max = perform t g (req ++ extra) resp max (act t g req).
Proof.
  unfold handleRequest. rewrite is_P_spec. destruct req as [|c r].
  - change (Z.of_nat (length (@nil Z))) with 0. rewrite !cmd_nil' by lia. reflexivity.
  - cbn [app]. rewrite !cmd_cons. cbn [bind].
    replace (1 <=? Z.of_nat (length (c :: r))) with true by (symmetry; apply Z.leb_le; cbn [length]; lia).
    cbn [andb]. unfold act.
    replace (2 <=? Z.of_nat (length (c :: r))) with (negb (match r with [] => true | _ => false end)).
    2:{ destruct r; [reflexivity|]. symmetry. apply Z.leb_le. cbn [length]. lia. }
    replace (18 <=? Z.of_nat (length (c :: r))) with (17 <=? length r)%nat.
    2:{ destruct (Nat.leb_spec 17 (length r)); symmetry; [apply Z.leb_le|apply Z.leb_gt]; cbn [length]; lia. }
    rewrite (andb_comm (negb _) (c =? 75)), (andb_comm (17 <=? length r)%nat).
    destruct ((c =? 75) && _) eqn:E1.
    { destruct r as [|x r]; [rewrite andb_false_r in E1; discriminate|]. cbn [app rd nth_error bind perform]. reflexivity. }
    destruct (c =? 86); [reflexivity|]. destruct (pP (c :: r)); [reflexivity|].
    destruct (c =? 109); [reflexivity|]. destruct (c =? 119); [reflexivity|]. destruct (c =? 101); [reflexivity|].
    destruct (c =? 104); [reflexivity|]. destruct (c =? 76); [reflexivity|]. destruct (c =? 74); [reflexivity|].
    destruct (c =? 116); [reflexivity|]. destruct ((c =? 115) && _); reflexivity.
Qed.

(** ** writing the reply *)
Lemma poke_ok mem bytes : (length bytes <= length mem)%nat -> poke mem 0 bytes = Ok (bytes ++ skipn (length bytes) mem).
Proof. intros H. unfold poke. replace (0 + length bytes <=? length mem)%nat with true by (symmetry; apply Nat.leb_le; lia). reflexivity. Qed.
Lemma snprintf_fits mem max text : Z.of_nat (length text) < max -> max <= Z.of_nat (length mem) ->
  snprintf mem max text = Ok (Z.of_nat (length text), written text mem).
Proof.
  intros H1 H2. unfold snprintf. replace (max <=? 0) with false by (symmetry; apply Z.leb_gt; lia).
  rewrite firstn_all2 by lia. rewrite poke_ok by (rewrite app_length; cbn [length]; lia). cbn [bind].
  rewrite app_length. cbn [length]. rewrite <- app_assoc. unfold written. cbn [app]. do 5 f_equal. lia.
Qed.
(** at most [max] bytes are ever written *)
Lemma snprintf_general mem max text : max <= Z.of_nat (length mem) ->
  exists head, snprintf mem max text = Ok (Z.of_nat (length text), head ++ skipn (length head) mem) /\
    Z.of_nat (length head) <= Z.max 0 max /\
    (0 < max -> head = firstn (Z.to_nat (max - 1)) text ++ [0]).
Proof.
  intros H2. unfold snprintf. destruct (Z.leb_spec max 0).
  - exists []. split; [reflexivity|]. cbn [length]. split; [lia|lia].
  - assert (L : Nat.le (length (firstn (Z.to_nat (max - 1)) text ++ [0])) (Z.to_nat max)).
    { rewrite app_length, firstn_length. cbn [length]. lia. }
    exists (firstn (Z.to_nat (max - 1)) text ++ [0]). split; [|split; [lia|auto]].
    rewrite poke_ok by lia. reflexivity.
Qed.

(** ** consequences *)
Lemma act_answers t g req text : bytes_ok req -> answers t g req text -> act t g req = AReply text.
Proof.
  intros Hb H. destruct H; try (unfold act; rewrite ?pP_not by reflexivity; reflexivity).
  - inversion Hb as [|? ? _ Hb']; subst. inversion Hb' as [|? ? Hc _]; subst. unfold act. cbn. unfold pc, u8.
    red in Hc. rewrite Z.mod_small by lia. reflexivity.
  - apply device_in in H. unfold act, pP. rewrite H. reflexivity.
  - unfold act. rewrite pP_not by reflexivity. cbn. destruct (t_cal t); reflexivity.
Qed.
Lemma act_location t g r : act t g (119 :: r) = ALocation.
Proof. unfold act. rewrite pP_not by reflexivity. reflexivity. Qed.
Lemma act_position t g r : act t g (101 :: r) = APosition.
Proof. unfold act. rewrite pP_not by reflexivity. reflexivity. Qed.
Lemma act_sync t g req : act t g req = ASync <-> is_sync req.
Proof.
  split.
  - intros H. destruct req as [|c r]; [discriminate|]. unfold act in H.
    destruct (_ && _) in H; [discriminate|]. destruct (c =? 86); [discriminate|]. destruct (pP _); [discriminate|].
    destruct (c =? 109); [discriminate|]. destruct (c =? 119); [discriminate|]. destruct (c =? 101); [discriminate|].
    destruct (c =? 104); [discriminate|]. destruct (c =? 76); [discriminate|]. destruct (c =? 74); [discriminate|].
    destruct (c =? 116); [discriminate|]. destruct (_ && _) eqn:E in H; [|discriminate].
    apply andb_true_iff in E. destruct E as [E1 E2]. apply Z.eqb_eq in E1. apply Nat.leb_le in E2.
    exists r. subst. auto.
  - intros (r & -> & Hl). apply Nat.leb_le in Hl. unfold act. rewrite pP_not by reflexivity. cbn [Z.eqb Pos.eqb andb]. rewrite Hl. reflexivity.
Qed.
Lemma act_none t g req : act t g req = ANone <-> ~ recognised req.
Proof.
  split.
  - intros H R. destruct R as [(c & r & ->)|[(l & r & Hl & ->)|[(d & r & Hd & ->)|Hs]]].
    + discriminate H.
    + cbn [In] in Hl. destruct Hl as [<-|[<-|[<-|[<-|[<-|[<-|[<-|[<-|[]]]]]]]]];
        unfold act in H; rewrite pP_not in H by reflexivity; discriminate.
    + apply device_in in Hd. unfold act, pP in H. rewrite Hd in H. discriminate.
    + apply (act_sync t g) in Hs. congruence.
  - intros R. unfold act. destruct req as [|c r]; [reflexivity|].
    destruct ((c =? 75) && _) eqn:E1.
    { exfalso. apply R. left. apply andb_true_iff in E1. destruct E1 as [E1 E2]. apply Z.eqb_eq in E1.
      destruct r as [|x r]; [discriminate|]. subst. eauto. }
    assert (K : forall l, In l [86; 109; 119; 101; 104; 76; 74; 116] -> c =? l = false).
    { intros l Hl. apply Z.eqb_neq. intros ->. apply R. right. left. eauto. }
    rewrite !K by (cbn; tauto).
    destruct (pP (c :: r)) eqn:EP.
    { exfalso. apply R. right. right. left. unfold pP in EP.
      destruct r as [|c1 [|c2 [|c3 [|c4 [|c5 [|c6 [|c7 r]]]]]]]; try discriminate.
      repeat (apply andb_true_iff in EP; destruct EP as [EP ?]). apply device_in in H4.
      repeat match goal with H : (_ =? _) = true |- _ => apply Z.eqb_eq in H; subst end. eauto. }
    destruct (_ && _) eqn:E in |- *; [|reflexivity].
    exfalso. apply R. right. right. right. apply andb_true_iff in E. destruct E as [E2 E3]. apply Z.eqb_eq in E2. apply Nat.leb_le in E3.
    exists r. subst. auto.
Qed.
Lemma act_reply_form t g req text : act t g req = AReply text -> exists pre, text = pre ++ [35].
Proof.
  unfold act. intros H. destruct req as [|c r]; [discriminate|].
  repeat match type of H with (if ?b then _ else _) = _ => destruct b end; try discriminate; injection H as <-.
  all: cbv zeta; match goal with |- exists pre, ?l = _ => exists (removelast l); reflexivity end.
Qed.
Lemma hex8_length v : length (hex8 v) = 8%nat. Proof. reflexivity. Qed.

Lemma read_upto_app req extra i n : (i + n <= length req)%nat -> read_upto (req ++ extra) i n = read_upto req i n.
Proof.
  revert i; induction n as [|n IH]; intros i H; [reflexivity|]. cbn [read_upto].
  unfold rd. rewrite nth_error_app1 by lia. destruct (nth_error req i); [|reflexivity]. cbn [bind].
  destruct (z =? 0); [reflexivity|]. rewrite IH by lia. reflexivity.
Qed.
Lemma read_upto_ok req i n : (i + n <= length req)%nat -> exists l, read_upto req i n = Ok l.
Proof.
  revert i; induction n as [|n IH]; intros i H; [eexists; reflexivity|]. cbn [read_upto].
  rewrite (rd_inb req i 0) by lia. cbn [bind]. destruct (_ =? 0); [eexists; reflexivity|].
  destruct (IH (S i)) as [l E]; [lia|]. rewrite E. cbn [bind]. eexists; reflexivity.
Qed.
Lemma do_sync_app t g req extra : is_sync req -> do_sync N T pf qsort m9 junk t g (req ++ extra) = do_sync N T pf qsort m9 junk t g req.
Proof.
  intros (r & -> & Hl). unfold do_sync, field. rewrite !read_upto_app by (cbn [length]; lia). reflexivity.
Qed.

Lemma hex_upper_hex8 w : hex8 w = hex_upper w.
Proof.
  unfold hex8, hex_upper. cbn [map]. rewrite Z.pow_0_r, Z.div_1_r, Z.pow_1_r. unfold hex_digit.
  replace (55 + (w / 16 ^ 7 mod 16)) with (65 + (w / 16 ^ 7 mod 16 - 10)) by ring.
  assert (E : forall d, (if d <? 10 then 48 + d else 55 + d) = (if d <? 10 then 48 + d else 65 + (d - 10))) by (intros; destruct (_ <? _); ring).
  rewrite !E. replace (65 + (w / 16 ^ 7 mod 16 - 10)) with (65 + (w / 16 ^ 7 mod 16 - 10)) by ring.
  reflexivity.
Qed.
Lemma hex_upper_spells w : spells w (hex_upper w).
Proof.
  unfold spells, hex_upper. cbn [map].
  assert (E : forall d, hex_char d (if d <? 10 then 48 + d else 65 + (d - 10))) by (intros; unfold hex_char; destruct (Z.ltb_spec d 10); lia).
  repeat (apply Forall2_cons; [apply E|]). apply Forall2_nil.
Qed.
Lemma spells_length w l : spells w l -> length l = 8%nat.
Proof.
  unfold spells. intros H. repeat match goal with H : Forall2 _ (_ :: _) _ |- _ => inversion H; clear H; subst end.
  match goal with H : Forall2 _ [] _ |- _ => inversion H; subst end. reflexivity.
Qed.
Lemma hex_char_digit d c : 0 <= d < 16 -> hex_char d c -> digit_in 16 c = Some d /\ c <> 0.
Proof.
  intros R H. assert (D : digit_of c = Some d).
  { unfold digit_of. destruct H as [[A ->]|[[A ->]|[A ->]]].
    - replace ((48 <=? 48 + d) && (48 + d <=? 57)) with true by (symmetry; apply andb_true_iff; split; apply Z.leb_le; lia). f_equal; lia.
    - replace ((48 <=? _) && (_ <=? 57)) with false by (symmetry; apply andb_false_iff; right; apply Z.leb_gt; lia).
      replace ((65 <=? _) && (_ <=? 90)) with true by (symmetry; apply andb_true_iff; split; apply Z.leb_le; lia). f_equal; lia.
    - replace ((48 <=? _) && (_ <=? 57)) with false by (symmetry; apply andb_false_iff; right; apply Z.leb_gt; lia).
      replace ((65 <=? _) && (_ <=? 90)) with false by (symmetry; apply andb_false_iff; right; apply Z.leb_gt; lia).
      replace ((97 <=? _) && (_ <=? 122)) with true by (symmetry; apply andb_true_iff; split; apply Z.leb_le; lia). f_equal; lia. }
  unfold digit_in. rewrite D. replace (d <? 16) with true by (symmetry; apply Z.ltb_lt; lia). split; [reflexivity|].
  destruct H as [[A ->]|[[A ->]|[A ->]]]; lia.
Qed.
Lemma word_digits w : word w ->
  w = (((((((w / 16 ^ 7 mod 16 * 16 + w / 16 ^ 6 mod 16) * 16 + w / 16 ^ 5 mod 16) * 16 + w / 16 ^ 4 mod 16) * 16 +
       w / 16 ^ 3 mod 16) * 16 + w / 16 ^ 2 mod 16) * 16 + w / 16 mod 16) * 16) + w mod 16.
Proof.
  intros [H1 H2]. unfold word in *.
  change (16 ^ 7) with 268435456. change (16 ^ 6) with 16777216. change (16 ^ 5) with 1048576. change (16 ^ 4) with 65536.
  change (16 ^ 3) with 4096. change (16 ^ 2) with 256.
  Z.div_mod_to_equations. lia.
Qed.
Lemma spells_field req w f pre post : word w -> spells w f -> req = pre ++ f ++ post ->
  field pf req (length pre) = Ok w.
Proof.
  intros Hw Hs ->. unfold field.
  unfold spells in Hs.
  assert (B : forall x, 0 <= x mod 16 < 16) by (intros; apply Z.mod_pos_bound; lia).
  repeat match goal with H : Forall2 _ (_ :: _) _ |- _ => inversion H; clear H; subst end.
  match goal with H : Forall2 _ [] _ |- _ => inversion H; clear H; subst end.
  repeat match goal with H : hex_char _ ?c |- _ => apply hex_char_digit in H; [destruct H as [? ?]|apply B] end.
  match goal with |- context [pre ++ [?a;?b;?c;?d;?e;?f;?g;?h] ++ post] =>
    assert (R : read_upto (pre ++ [a;b;c;d;e;f;g;h] ++ post) (length pre) 8 = Ok [a;b;c;d;e;f;g;h]) end.
  { assert (G : forall l, (forall x, In x l -> x <> 0) -> read_upto (pre ++ l ++ post) (length pre) (length l) = Ok l).
    { intros l. revert pre. induction l as [|x l IH]; intros pre Hl; [reflexivity|].
      cbn [length read_upto]. unfold rd. rewrite nth_error_app2 by lia. rewrite Nat.sub_diag. cbn [app nth_error bind].
      destruct (Z.eqb_spec x 0) as [->|_]; [exfalso; apply (Hl 0); [left; auto|auto]|].
      specialize (IH (pre ++ [x])). rewrite app_length in IH. cbn [length] in IH. rewrite Nat.add_1_r in IH.
      rewrite <- app_assoc in IH. cbn [app] in IH. rewrite IH by (intros; apply Hl; right; auto). reflexivity. }
    apply G. cbn [In]. intros x Hx. decompose [or] Hx; subst; auto. }
  rewrite R. cbn [bind]. f_equal. clear R.
  match goal with |- context [strtoul pf 16 ?l] => replace l with (l ++ []) by apply app_nil_r end.
  unfold strtoul. rewrite strto_int_hex.
  - cbn [fst]. unfold hexval. cbn [fold_left].
    repeat match goal with H : digit_in 16 _ = Some _ |- _ => rewrite H; clear H end.
    rewrite Z.mul_0_l, Z.add_0_l. rewrite <- word_digits by exact Hw.
    replace (ulong_mod pf <=? w) with false; [reflexivity|]. symmetry. apply Z.leb_gt. unfold word in Hw. unfold ulong_mod. destruct (w64 pf); lia.
  - unfold hexdigits. cbn [forallb]. repeat match goal with H : digit_in 16 _ = Some _ |- _ => rewrite H; clear H end. reflexivity.
  - discriminate.
  - exact I.
  - discriminate.
Qed.
End P.
