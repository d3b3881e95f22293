(** Proofs about the telemetry texts. *)
From Verif Require Import Base Num M_Libc P_Libc M_Checkbits M_Linalg M_Helper M_Alignment S_Alignment M_Telescope M_Stellarium M_Gnss M_NexStar S_NexStar P_NexStar M_Led M_Imu M_Main P_Sched P_Main P_Main2 P_Publish S_Json P_Json S_Telemetry.
From Coq Require Import Strings.String.
Notation length := List.length.

(** ** decimals *)
Lemma dec_go_spec fuel : forall n acc, (0 < fuel)%nat -> 0 <= n < 10 ^ Z.of_nat fuel -> exists d, decimal n d /\ dec_go fuel n acc = d ++ acc.
Proof.
  induction fuel as [|fuel IH]; intros n acc Hf Hn; [lia|]. cbn [dec_go]. destruct (Z.ltb_spec n 10) as [H|H].
  - exists [48 + n]. rewrite Z.mod_small by lia. split; [|reflexivity]. split; [discriminate|]. split; [constructor; [unfold digit; lia|constructor]|].
    split; [cbn [number]; lia|]. cbn [length]. lia.
  - assert (Hd : 1 <= n / 10) by (apply Z.div_le_lower_bound; lia).
    assert (F0 : (0 < fuel)%nat).
    { destruct fuel; [|lia]. change (10 ^ Z.of_nat 1) with 10 in Hn. lia. }
    destruct (IH (n / 10) ((48 + n mod 10) :: acc) F0) as (d & (D1 & D2 & D3 & D4) & E).
    { split; [lia|]. apply Z.div_lt_upper_bound; [lia|]. rewrite Nat2Z.inj_succ, Z.pow_succ_r in Hn by lia. lia. }
    exists (d ++ [48 + n mod 10]). pose proof (Z.mod_pos_bound n 10 ltac:(lia)) as B. split; [|rewrite E, <- app_assoc; reflexivity].
    split; [destruct d; discriminate|]. split; [apply Forall_app; split; [exact D2|constructor; [unfold digit; lia|constructor]]|].
    split; [rewrite number_app, D3; cbn [number]; pose proof (Z.div_mod n 10 ltac:(lia)); lia|].
    intros _. destruct d as [|c d]; [contradiction|]. cbn [hd app]. intros C. subst c.
    destruct d as [|c' d]; [cbn [number] in D3; lia|]. apply D4; [cbn [length]; lia|reflexivity].
Qed.
Lemma itext_spec n : - 10 ^ 20 < n < 10 ^ 20 -> signed n (itext n).
Proof.
  intros H. unfold itext, signed. destruct (Z.ltb_spec n 0).
  - right. split; [lia|]. destruct (dec_go_spec 20 (- n) []) as (d & D & E); [lia|change (Z.of_nat 20) with 20; lia|]. exists d. rewrite E, app_nil_r. auto.
  - left. split; [lia|]. destruct (dec_go_spec 20 n []) as (d & D & E); [lia|change (Z.of_nat 20) with 20; lia|]. rewrite E, app_nil_r. exact D.
Qed.
Lemma utext_spec w n : padded w (unsigned n) (utext w n).
Proof.
  unfold utext, padded. cbv zeta. assert (B : 0 <= u32 n < 2 ^ 32) by (unfold u32; apply Z.mod_pos_bound; reflexivity).
  destruct (dec_go_spec 20 (u32 n) []) as (d & D & E); [lia|change (Z.of_nat 20) with 20; lia|]. exists d. rewrite E, app_nil_r. split; [exact D|reflexivity].
Qed.
Lemma decimal_length n t k : decimal n t -> 0 <= n < 10 ^ Z.of_nat k -> (0 < k)%nat -> (length t <= k)%nat.
Proof.
  intros (D1 & D2 & D3 & D4) H K. destruct (Nat.le_gt_cases (length t) k) as [L|L]; [exact L|exfalso].
  assert (G : forall t acc, Forall digit t -> acc * 10 ^ Z.of_nat (length t) <= number acc t).
  { induction t0 as [|c t0 IH]; intros acc F; [cbn [length number]; change (10 ^ Z.of_nat 0) with 1; lia|]. inversion F as [|? ? Hc F']; subst. cbn [number length]. unfold digit in Hc. rewrite Nat2Z.inj_succ, Z.pow_succ_r by lia.
    eapply Z.le_trans; [|apply IH; exact F']. set (P := 10 ^ Z.of_nat (length t0)). assert (0 < P) by (apply Z.pow_pos_nonneg; lia). assert (0 <= (c - 48) * P) by (apply Z.mul_nonneg_nonneg; lia). lia. }
  destruct t as [|c t]; [contradiction|]. cbn [hd] in D4. specialize (D4 ltac:(lia)). inversion D2 as [|? ? Hc F]; subst. unfold digit in Hc.
  cbn [number] in H. change (10 * 0 + (c - 48)) with (c - 48) in H. pose proof (G t (c - 48) F) as Q. cbn [length] in L.
  assert (10 ^ Z.of_nat k <= 10 ^ Z.of_nat (length t)) by (apply Z.pow_le_mono_r; lia).
  assert (0 < 10 ^ Z.of_nat (length t)) by (apply Z.pow_pos_nonneg; lia).
  assert (1 * 10 ^ Z.of_nat (length t) <= (c - 48) * 10 ^ Z.of_nat (length t)) by (apply Z.mul_le_mono_nonneg_r; lia). lia.
Qed.
Lemma utext_length w n : (w <= 10)%nat -> (1 <= length (utext w n) <= 10)%nat.
Proof.
  intros Hw. destruct (utext_spec w n) as (d & D & ->). rewrite app_length, repeat_length.
  pose proof (decimal_length _ d 10 D) as L. destruct D as (D & _). destruct d as [|c d]; [contradiction|].
  assert (0 <= unsigned n < 2 ^ 32) by (unfold unsigned; apply Z.mod_pos_bound; reflexivity). specialize (L ltac:(change (Z.of_nat 10) with 10; lia) ltac:(lia)). cbn [length] in *. lia.
Qed.

(** ** decimals are JSON numbers *)
Lemma decimal_int n t : decimal n t -> j_int t.
Proof.
  intros (D1 & D2 & D3 & D4). destruct t as [|c [|c' t]]; [contradiction| |].
  - destruct (Z.eq_dec c 48) as [->|C]; [left; reflexivity|right]. split; [split; [discriminate|exact D2]|exact C].
  - right. split; [split; [discriminate|exact D2]|]. cbn [hd] in *. apply D4. cbn [length]. lia.
Qed.
Lemma decimal_json n t : decimal n t -> j_number t.
Proof. intros D. exists [], t, [], []. split; [auto|]. split; [eapply decimal_int; exact D|]. split; [left; reflexivity|]. split; [left; reflexivity|]. rewrite !app_nil_r. reflexivity. Qed.
Lemma signed_json n t : signed n t -> j_number t.
Proof.
  intros [[_ H]|(_ & d & H & ->)]; [eapply decimal_json; exact H|]. exists [45], d, [], []. split; [auto|]. split; [eapply decimal_int; exact H|].
  split; [left; reflexivity|]. split; [left; reflexivity|]. rewrite !app_nil_r. reflexivity.
Qed.

(** ** what is published *)
Definition to_server (o : list out) : list (string * list Z) := flat_map (fun x => match x with MqttOut t p => [(t, p)] | _ => [] end) o.
Definition to_broker (o : list out) : list (string * list Z) := flat_map (fun x => match x with BrokerOut t p => [(t, p)] | _ => [] end) o.
(** what PubSubClient accepts: topic and payload fit into its 256-byte packet buffer with 7 bytes of header *)
Definition sendable (m : string * list Z) : bool := 7 + Z.of_nat (String.length (fst m)) + Z.of_nat (length (snd m)) <=? 256.
Lemma to_server_app a b : to_server (a ++ b) = to_server a ++ to_server b. Proof. apply flat_map_app. Qed.
Lemma to_broker_app a b : to_broker (a ++ b) = to_broker a ++ to_broker b. Proof. apply flat_map_app. Qed.

Lemma until_nul_app a b : Forall (fun c => c <> 0) a -> until_nul (a ++ 0 :: b) = a.
Proof. induction a as [|c a IH]; intros F; [reflexivity|]. inversion F; subst. cbn [app until_nul]. destruct (Z.eqb_spec c 0); [contradiction|]. rewrite IH by assumption. reflexivity. Qed.

Section Device.
Context (N : Num) (T : Trig N) (pf : platform) (oor : conv_policy) (lc : libc N).
Context (ftext : nat -> F N -> list Z) (cfg : config).
Lemma snprintf_text mem text : length mem = 256%nat -> exists rest, snprintf mem 256 text = Ok (Z.of_nat (length text), firstn 255 text ++ 0 :: rest) /\ length (firstn 255 text ++ 0 :: rest) = 256%nat.
Proof.
  intros L. unfold snprintf. change (256 <=? 0) with false. cbv iota. change (Z.to_nat (256 - 1)) with 255%nat. unfold poke. cbn [Nat.add].
  pose proof (firstn_le_length 255 text) as B. set (u := firstn 255 text) in *. clearbody u. rewrite app_length. cbn [length].
  replace (length u + 1 <=? length mem)%nat with true by (symmetry; apply Nat.leb_le; lia).
  cbn [bind firstn app]. exists (skipn (length u + 1) mem). rewrite <- app_assoc. cbn [app]. split; [reflexivity|]. rewrite app_length. cbn [length]. rewrite skipn_length. lia.
Qed.
Lemma publish_text_says d tp text d' o : length (d_tx d) = 256%nat -> publish_text N cfg d tp text = Ok (d', o) ->
  (exists tx, d' = set_tx N d tx /\ length tx = 256%nat) /\
  to_server o = (if c_mqtt cfg then filter sendable [(tp, text)] else []) /\
  (Forall (fun c => c <> 0) text -> to_broker o = (if c_broker cfg then [(tp, firstn 255 text)] else [])) /\ map fst (to_broker o) = (if c_broker cfg then [tp] else []).
Proof.
  intros L. unfold publish_text. destruct (snprintf_text (d_tx d) text L) as (rest & -> & L'). cbn [bind]. unfold publish_tx.
  set (tx := firstn 255 text ++ 0 :: rest) in *.
  assert (M : to_server (if c_mqtt cfg then mqtt_publish tp tx (Z.of_nat (length text)) else []) = (if c_mqtt cfg then filter sendable [(tp, text)] else []) /\ to_broker (if c_mqtt cfg then mqtt_publish tp tx (Z.of_nat (length text)) else []) = []).
  { destruct (c_mqtt cfg); [|split; reflexivity]. unfold mqtt_publish. cbn [filter]. unfold sendable. cbn [fst snd]. change (5 + 2) with 7.
    destruct (Z.leb_spec (7 + Z.of_nat (String.length tp) + Z.of_nat (length text)) 256); [|split; reflexivity]. split; [|reflexivity]. cbn [to_server flat_map app]. do 2 f_equal.
    rewrite Nat2Z.id. unfold tx. rewrite (firstn_all2 (n := 255) text) by lia. rewrite firstn_app, firstn_all, Nat.sub_diag. cbn [firstn]. apply app_nil_r. }
  destruct M as [M1 M2].
  destruct (c_broker cfg).
  - destruct (cstring tx) as [s|] eqn:Ec; [|discriminate]. cbn [bind]. intros E. apply Ok2 in E. destruct E as [<- <-].
    split; [exists tx; auto|]. rewrite to_server_app, to_broker_app, M1, M2. cbn [to_server to_broker flat_map app map fst]. rewrite app_nil_r. split; [reflexivity|]. split; [|reflexivity].
    intros F. unfold cstring in Ec. destruct (find_char 0 tx); [|discriminate]. apply Ok1 in Ec. subst s. unfold tx. rewrite until_nul_app; [reflexivity|].
    apply Forall_forall. intros c Hc. rewrite Forall_forall in F. apply F. rewrite <- (firstn_skipn 255 text). apply in_or_app. left. exact Hc.
  - cbn [bind]. intros E. apply Ok2 in E. destruct E as [<- <-]. split; [exists tx; auto|]. rewrite app_nil_r, M1, M2. auto.
Qed.
End Device.
