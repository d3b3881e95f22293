(** Memory safety of whole device histories. *)
From Verif Require Import Base Num M_Libc P_Libc M_Checkbits M_Linalg M_Helper M_Alignment S_Alignment P_Alignment P_AlignState P_AlignState2 P_AlignSmall M_Telescope M_Stellarium M_Gnss P_Gnss P_Gnss2 P_Gnss3 M_NexStar S_NexStar P_NexStar M_Led M_Imu P_Imu M_Main P_Sched P_Main P_Main2 P_Device P_Device2 P_Publish S_Safe.
From Coq Require Import Strings.String Permutation.
Open Scope Z_scope.
Notation length := List.length.

(** [hoare r P]: r makes no out-of-bounds access and no read of indeterminate memory; if it returns, P holds of the value *)
Definition hoare {A} (r : res A) (P : A -> Prop) : Prop :=
  match r with Ok a => P a | UB u => u <> OobRead /\ u <> OobWrite /\ u <> UninitRead end.
Lemma hoare_bind {A B} (r : res A) (f : A -> res B) P Q : hoare r P -> (forall a, P a -> hoare (f a) Q) -> hoare (bind r f) Q.
Proof. destruct r; cbn; auto. Qed.
Lemma hoare_weaken {A} (r : res A) (P Q : A -> Prop) : hoare r P -> (forall a, P a -> Q a) -> hoare r Q.
Proof. destruct r; cbn; auto. Qed.
Lemma hoare_no_oob {A} (r : res A) P : hoare r P -> no_oob r.
Proof. intros H u ->. exact H. Qed.
Lemma no_oob_hoare {A} (r : res A) : no_oob r -> hoare r (fun _ => True).
Proof. intros H. destruct r; cbn; auto. Qed.
Lemma hoare_and {A} (r : res A) (P Q : A -> Prop) : hoare r P -> (forall a, r = Ok a -> Q a) -> hoare r (fun a => P a /\ Q a).
Proof. destruct r; cbn; auto. Qed.

(** buffers of 256 bytes whose last byte is NUL *)
Definition good (tx : list Z) : Prop := length tx = 256%nat /\ nth_error tx 255 = Some 0.
Lemma good_cstring tx : good tx -> exists s, cstring tx = Ok s.
Proof.
  intros [_ H]. unfold cstring. destruct (find_char 0 tx) eqn:E; [eauto|]. exfalso. apply find_char_none in E. apply E.
  eapply nth_error_In, H.
Qed.
Lemma good_snprintf tx text : good tx -> exists tx', snprintf tx 256 text = Ok (Z.of_nat (length text), tx') /\ good tx'.
Proof.
  intros [L H]. destruct (snprintf_general tx 256 text) as (h & E & Hl & Hh); [rewrite L; lia|]. exists (h ++ skipn (length h) tx). split; [exact E|].
  specialize (Hh ltac:(lia)). assert (Hl' : (length h <= 256)%nat) by lia. split; [rewrite app_length, skipn_length; lia|].
  destruct (Nat.lt_ge_cases 255 (length h)) as [K|K].
  - rewrite nth_error_app1 by lia. subst h. rewrite app_length in K, Hl'. cbn [length] in K, Hl'.
    rewrite nth_error_app2 by lia. replace (255 - length (firstn (Z.to_nat (256 - 1)) text))%nat with 0%nat by lia. reflexivity.
  - rewrite nth_error_app2 by lia. rewrite <- H. rewrite <- (firstn_skipn (length h) tx) at 2. rewrite nth_error_app2; rewrite firstn_length; [|lia].
    f_equal. lia.
Qed.
Lemma nth_error_upd {A} (l : list A) : forall i x l' k, upd l i x = Some l' -> k <> i -> nth_error l' k = nth_error l k.
Proof.
  induction l as [|h t IH]; intros [|i] x l' k E Hk; cbn in E; try discriminate.
  - injection E as <-. destruct k; [contradiction|reflexivity].
  - destruct (upd t i x) eqn:Eu; [|discriminate]. injection E as <-. destruct k; [reflexivity|]. cbn. eapply IH; [exact Eu|lia].
Qed.
Lemma good_wr tx i b : good tx -> (i < 255)%nat -> exists tx', wr tx i b = Ok tx' /\ good tx'.
Proof.
  intros [L H] Hi. destruct (upd_some tx i b) as [l' E]; [lia|]. unfold wr. rewrite E. exists l'. split; [reflexivity|].
  split; [apply upd_length in E; congruence|]. rewrite (nth_error_upd _ _ _ _ _ E) by lia. exact H.
Qed.
Lemma good_put bs : forall tx i, good tx -> (i + length bs <= 255)%nat -> exists tx', put tx i bs = Ok tx' /\ good tx'.
Proof.
  induction bs as [|b bs IH]; intros tx i G H; cbn [put]; [eauto|]. cbn [length] in H. destruct (good_wr tx i b G) as (t1 & -> & G1); [lia|].
  cbn [bind]. apply IH; [exact G1|lia].
Qed.

Section Safe.
Context (N : Num) (T : Trig N) (pf : platform) (oor : conv_policy) (lc : libc N).
Context (qsort : list (vpair N) -> list (vpair N)) (x : F N) (j : F N * F N).
Context (ftext : nat -> F N -> list Z) (left_first : bool) (cfg : config).
Hypothesis Hq : permuting N qsort.
Hypothesis Hlc : strtof_bounded lc.
Hypothesis Hoor : policy_ok oor.
Hypothesis Hpf : w64 pf = false.
Notation dev := (dev N). Notation env := (env N). Notation event := (event N).
Notation loop := (loop N T pf oor lc qsort (Ok x) (Some j) ftext left_first cfg).
Notation step := (M_Main.step N T pf oor lc qsort (Ok x) (Some j) ftext left_first cfg).
Notation history := (history N T pf oor lc qsort (Ok x) (Some j) ftext left_first cfg).
Notation points_text := (points_text N ftext).
Notation room := (room N qsort j). Notation pass_orientation := (pass_orientation N left_first). Notation shown := (shown N).
Notation safe_event := (safe_event N T qsort j ftext left_first cfg).
Notation careful := (careful N T pf oor lc qsort x j ftext left_first cfg).

(** ** the alignment object *)
Definition calib_ok (a : align N) : Prop := WF N a /\ (mats_spec N x a \/ (tris a = [] /\ numVertices a = 0)).
Lemma calib_init : calib_ok (align_init N).
Proof. split; [apply WF_init|]. right. split; reflexivity. Qed.
Lemma calib_clear a : calib_ok a -> calib_ok (clearAll N a).
Proof. intros [H _]. split; [apply WF_clear, H|]. right. split; reflexivity. Qed.
Lemma calib_total a p : calib_ok a -> exists ty m, getTransformationType N a p = Ok ty /\ getTransformationMatrix N a p = Ok m.
Proof.
  intros [HW [Hm|[Ht Hs]]].
  - destruct (type_and_matrix N x a p HW Hm) as (ty & m & E1 & E2 & _). eauto.
  - exists NONE, (identity N). unfold getTransformationType, getTransformationMatrix, numTriangles. rewrite Ht, Hs. cbn. split; reflexivity.
Qed.
Lemma sync_safe t r d lat l : calib_ok (t_align t) -> room (t_align t) (t_orient t) ->
  exists t', addReferencePoint N T qsort (Ok x) (Some j) t r d lat l = Ok t' /\ calib_ok (t_align t') /\ t_orient t' = t_orient t.
Proof.
  intros [HW _] HR. unfold addReferencePoint. set (h := Pt _ _).
  assert (K : exists b a, addVertexPair N qsort (t_align t) (t_orient t) h = Ok (b, a) /\ WF N a /\ (length (stored a) <= S (length (stored (t_align t))))%nat).
  { destruct (is_dup N (t_align t) (t_orient t)) eqn:Ed.
    - exists false, (t_align t). split; [apply addVertexPair_dup, Ed|]. split; [exact HW|lia].
    - destruct (addVertexPair_new N qsort (t_align t) (t_orient t) h Hq HW Ed) as (a' & r' & E & HW' & _ & _ & _ & _ & _ & K1 & K2).
      exists true, a'. split; [exact E|]. split; [exact HW'|]. pose proof HW as ((Hn1 & Hn2) & _).
      destruct (Z.eq_dec (numVertices (t_align t)) 63) as [E63|E63]; [destruct (K2 E63) as [_ ->]; cbn; lia|].
      destruct K1 as [_ ->]; [lia|]. rewrite (Permutation_length (Hq _)), app_length. cbn. lia. }
  destruct K as (b & a & E & HWa & Hlen). rewrite E. cbn [bind].
  destruct (triangulate_actual N x j a HWa) as [(a' & Ea & HWa' & _ & _ & _ & _ & Hm)|(Hp & Eu & _)].
  - rewrite Ea. cbn [bind]. eexists. split; [reflexivity|]. split; [split; [exact HWa'|left; exact Hm]|reflexivity].
  - exfalso. pose proof (stored_length N a HWa) as HL.
    assert (Hne : stored a <> []) by (intros C; rewrite C in HL; cbn in HL; lia).
    destruct HR as [HR|HR].
    + destruct (small_fits N j (map actual (stored a))) as (ts & Et); [rewrite map_length; destruct (stored a); [contradiction|cbn [length] in *; lia]|congruence].
    + destruct (HR _ _ _ E Hne) as (ts & Et). congruence.
Qed.

(** ** NexStar *)
Lemma to_u8_safe v : hoare (to_u8 N oor v) (fun _ => True).
Proof.
  unfold to_u8. destruct (ftrunc N v); [|cbn; repeat split; discriminate]. destruct (_ && _); [exact I|]. apply no_oob_hoare, Hoor.
Qed.
Lemma to_u32_safe v : hoare (to_u32 N oor v) (fun _ => True).
Proof.
  unfold to_u32. destruct (ftrunc N v); [|cbn; repeat split; discriminate]. destruct (_ && _); [exact I|]. apply no_oob_hoare, Hoor.
Qed.
Lemma handle_safe t g req len tx : len = Z.of_nat (length req) -> (8 <= length req)%nat \/ recognised req -> good tx -> calib_ok (t_align t) ->
  (is_sync req -> room (t_align t) (t_orient t)) ->
  hoare (handleRequest N T pf oor qsort (Ok x) (Some j) t g req len tx 256) (fun '(n, tx', t') => good tx' /\ calib_ok (t_align t') /\ t_orient t' = t_orient t).
Proof.
  intros -> H8 G C R. pose proof (handle_act N T pf oor qsort (Ok x) (Some j) t g req [] tx 256) as H. rewrite app_nil_r in H. rewrite H. clear H.
  assert (RP : forall t1 text, calib_ok (t_align t1) /\ t_orient t1 = t_orient t -> hoare (reply N t1 tx 256 text) (fun '(n, tx', t') => good tx' /\ calib_ok (t_align t') /\ t_orient t' = t_orient t)).
  { intros t1 text C1. unfold reply. destruct (good_snprintf tx text G) as (tx' & -> & G'). cbn. auto. }
  destruct (act N t g req) as [text| | | |] eqn:Ea; cbn [perform].
  - apply RP. auto.
  - do 4 (eapply hoare_bind; [apply to_u8_safe|intros ? _]). apply RP. auto.
  - unfold calibratedEquatorial. destruct (calib_total _ (t_orient t) C) as (ty & m & E1 & E2). rewrite E1. cbn [bind].
    unfold getCalibratedOrientation. rewrite E2. cbn [bind]. do 2 (eapply hoare_bind; [apply to_u32_safe|intros ? _]). apply RP. auto.
  - assert (Hs : is_sync req) by (apply (act_sync N t g req); exact Ea).
    destruct Hs as (r & Er & Hr). unfold do_sync, field.
    destruct (read_upto_ok req 1 8) as (l1 & ->); [rewrite Er; cbn [length]; lia|]. cbn [bind].
    destruct (read_upto_ok req 10 8) as (l2 & ->); [rewrite Er; cbn [length]; lia|]. cbn [bind].
    match goal with |- context [addReferencePoint N T qsort _ _ t ?a ?b ?c ?l] => destruct (sync_safe t a b c l C (R ltac:(exists r; split; [exact Er|exact Hr]))) as (t' & -> & C' & O') end.
    cbn [bind]. apply RP. split; [exact C'|exact O'].
  - assert (H8' : (8 <= length req)%nat) by (destruct H8 as [H8|H8]; [exact H8|exfalso; apply act_none in Ea; contradiction]).
    unfold reads8. destruct (arduino pf).
    + do 8 (destruct req as [|? req]; [cbn [length] in H8'; lia|]). cbn. auto.
    + cbn. auto.
Qed.

(** ** Stellarium messages *)
Lemma unpack_safe rx n o : length rx = 256%nat -> exists r, unpackPosition N false rx n o = Ok r.
Proof.
  intros L. unfold unpackPosition. rewrite !(rd_inb rx _ 0) by lia. cbn [bind]. destruct (_ || _); [eauto|]. destruct (negb _); [eauto|]. cbn [bind]. eauto.
Qed.
Lemma pack_safe r d tx : good tx -> hoare (packPosition N oor r d 0 tx 256) (fun '(n, tx') => good tx').
Proof.
  intros G. unfold packPosition. change (256 <? 24) with false. cbv iota.
  match goal with |- hoare (do _ <- put tx 0 ?l; _) _ => destruct (good_put l tx 0 G) as (t1 & -> & G1); [cbn [length]; lia|] end. cbn [bind].
  eapply hoare_bind; [apply to_u32_safe|intros w1 _].
  match goal with |- hoare (do _ <- put t1 12 ?l; _) _ => destruct (good_put l t1 12 G1) as (t2 & -> & G2); [cbn [length]; lia|] end. cbn [bind].
  eapply hoare_bind; [apply to_u32_safe|intros w2 _].
  match goal with |- hoare (do _ <- put t2 16 ?l; _) _ => destruct (good_put l t2 16 G2) as (t3 & -> & G3); [cbn [length]; lia|] end. cbn [bind].
  match goal with |- hoare (do _ <- put t3 20 ?l; _) _ => destruct (good_put l t3 20 G3) as (t4 & -> & G4); [cbn [length]; lia|] end. exact G4.
Qed.

(** ** the device *)
Definition inv (d : dev) : Prop :=
  good (d_tx d) /\ length (d_rx d) = 256%nat /\ imu_ok N (d_imu d) /\ calib_ok (t_align (d_tel d)).
Lemma inv_sized d : inv d -> sized N d. Proof. intros ((H & _) & H2 & _). split; assumption. Qed.

Lemma serve_safe d e : inv d -> (0 < received N e -> room (t_align (d_tel d)) (t_orient (d_tel d))) ->
  hoare (serve_tcp N T pf oor qsort (Ok x) (Some j) d e) (fun '(d', _) => inv d').
Proof.
  intros I0 HR. pose proof (rx_after_length N d e (inv_sized _ I0)) as HL. destruct I0 as (G & Lr & Im & C).
  assert (E : serve_tcp N T pf oor qsort (Ok x) (Some j) d e = (if 0 <? received N e then
    do '(n, tx, tel) <- handleRequest N T pf oor qsort (Ok x) (Some j) (d_tel d) (d_gnss d) (rx_after N d e) 256 (d_tx d) 256;
    let d2 := set_tel N (set_tx N (set_rx N d (rx_after N d e)) tx) tel in
    if 0 <? n then Ok (set_nexstar N d2 true, [TcpOut (firstn (Z.to_nat n) tx)])
    else
      do '(ok, o) <- unpackPosition N false (rx_after N d e) (received N e) (Build_unpack_out (fZ N 0) (fZ N 0) 0);
      if ok : bool then
        do tel <- addReferencePoint N T qsort (Ok x) (Some j) (d_tel d2) (o_ra o) (o_dec o) (g_latitude (d_gnss d2)) (lst N d2);
        Ok (set_tel N d2 tel, [])
      else Ok (d2, [])
    else Ok (set_rx N d (rx_after N d e), []))).
  { unfold serve_tcp, rx_after, received. destruct (e_tcp e); reflexivity. }
  rewrite E. clear E. destruct (Z.ltb_spec 0 (received N e)) as [Hn|Hn].
  2: { cbn. repeat split; try assumption; try apply G; apply C. }
  assert (Hl : Z.of_nat (length (rx_after N d e)) = 256) by (rewrite HL; reflexivity).
  eapply hoare_bind.
  { eapply (hoare_and _ _ (fun '(n, tx, t') => n <= 0 -> t' = d_tel d)).
    - apply handle_safe; [symmetry; exact Hl|left; rewrite HL; lia|exact G|exact C|intros _; apply HR, Hn].
    - intros [[n tx] t'] Eh Hn0. assert (Eh' : handleRequest N T pf oor qsort (Ok x) (Some j) (d_tel d) (d_gnss d) (rx_after N d e) (Z.of_nat (length (rx_after N d e))) (d_tx d) 256 = Ok (n, tx, t')) by (rewrite Hl; exact Eh).
      destruct (handle_result _ _ _ _ _ _ _ _ _ _ _ _ _ _ (proj1 G) Eh') as (_ & _ & _ & [(-> & _)|(_ & -> & _)]); [lia|reflexivity]. }
  intros [[n tx] tel] ((G' & C' & _) & K). cbv zeta. destruct (Z.ltb_spec 0 n) as [Hn1|Hn1].
  - cbn. repeat split; try assumption; try apply G'; apply C'.
  - specialize (K Hn1). subst tel. destruct (unpack_safe (rx_after N d e) (received N e) (Build_unpack_out (fZ N 0) (fZ N 0) 0) HL) as ([ok o] & ->). cbn [bind].
    destruct ok.
    + cbn [set_tel set_tx set_rx d_tel d_gnss].
      match goal with |- context [addReferencePoint N T qsort _ _ ?t ?a ?b ?c ?l] => destruct (sync_safe t a b c l C (HR Hn)) as (t' & -> & Ct & _) end.
      cbn. repeat split; try assumption; try apply G'; apply Ct.
    + cbn. repeat split; try assumption; try apply G'; apply C.
Qed.
Lemma mqtt_loop_safe msgs : forall d, inv d -> hoare (mqtt_loop N d msgs) (fun '(d', _) => inv d').
Proof.
  induction msgs as [|[tp pl] msgs IH]; intros d I0; cbn [mqtt_loop]; [exact I0|].
  eapply hoare_bind with (P := fun '(d', _) => inv d').
  - unfold mqttCallback. destruct pl; [exact I0|]. destruct (find_sub _ _); [|exact I0]. destruct (_ =? 49); [|exact I0]. cbv zeta.
    destruct I0 as (G & Lr & Im & C). destruct (good_wr (d_tx d) 0 48 G) as (tx & E & G'); [lia|]. cbn [set_tel d_tx]. rewrite E.
    cbn. repeat split; try assumption; try apply G'; apply (calib_clear _ C).
  - intros [d1 o1] I1. eapply hoare_bind; [apply IH, I1|]. intros [d2 o2] I2. exact I2.
Qed.
Lemma task_100_safe d e : inv d ->
  (has_client d && e_up_read e = true -> 0 < received N e -> forall p, measure_pitch N T d = Ok p -> room (t_align (d_tel d)) (pass_orientation d e p)) ->
  hoare (task_100ms N T pf oor qsort (Ok x) (Some j) left_first cfg d e) (fun '(d', _) => inv d').
Proof.
  intros I0 HR. pose proof I0 as (G & Lr & Im & C). unfold task_100ms. destruct (imu_ok_pitch N T d Im) as (p & Ep). rewrite Ep. cbn [bind]. cbv zeta.
  set (d1 := set_tel N (set_attitude N d _ p) _).
  assert (I1 : inv d1) by (repeat split; try assumption; try apply G; apply C).
  eapply hoare_bind with (P := fun '(d', _) => inv d').
  - change (has_client d1) with (has_client d). destruct (has_client d && e_up_read e); [|exact I1].
    apply serve_safe; [exact I1|]. intros Hn. exact (HR eq_refl Hn p Ep).
  - intros [d2 o2] I2. eapply hoare_bind with (P := fun '(d', _) => inv d').
    + destruct (c_mqtt cfg); [apply mqtt_loop_safe, I2|exact I2].
    + intros [d3 o3] I3. set (d4 := set_led N d3 _). assert (I4 : inv d4) by (destruct I3 as (G3 & ? & ? & C3); repeat split; try assumption; try apply G3; apply C3).
      destruct (c_wifi cfg).
      * rewrite check_accepts. cbn. destruct I4 as (G4 & ? & ? & C4). repeat split; try assumption; try apply G4; apply C4.
      * exact I4.
Qed.

(** ** 500 ms *)
Lemma substr_length s a b : (length (substr s a b) <= length s)%nat.
Proof. unfold substr. destruct (_ <? 0); [rewrite skipn_length; lia|rewrite firstn_length, skipn_length; lia]. Qed.
Lemma find_from_char c s p k : find_from c s p = Some k -> nth_error s k = Some c.
Proof.
  unfold find_from. destruct (find_char c (skipn p s)) as [i|] eqn:E; cbn [option_map]; [|discriminate].
  intros H. injection H as <-. apply find_char_some in E. destruct E as (L & E & _). rewrite skipn_length in L.
  rewrite <- (firstn_skipn p s), nth_error_app2; rewrite firstn_length; [|lia]. rewrite <- E. f_equal. lia.
Qed.
Lemma loop_safe s : Z.of_nat (length s) < 2 ^ 32 -> serial_ok s -> forall fuel e n g, (e = 0%nat \/ nth_error s e = Some 10) -> 
  hoare (buffer_loop N pf oor lc fuel s e n g) (fun _ => True).
Proof.
  intros Ls HS. induction fuel as [|fuel IH]; intros e n g He; cbn [buffer_loop]; [cbn; repeat split; discriminate|].
  destruct (find_from 36 s e) as [st|] eqn:E1; [|exact I]. destruct (find_from 10 s (e + 1)) as [en|] eqn:E2; [|exact I].
  destruct (HS e st en He E1 E2) as (H1 & H2 & H3). pose proof (substr_length s st en) as Lb.
  eapply hoare_bind; [apply no_oob_hoare, nmea_safe; try assumption; lia|].
  intros [b g1] _. apply IH. right. eapply find_from_char, E2.
Qed.
Lemma poll_safe d e : inv d -> serial_ok (firstn 255 (e_serial e)) -> hoare (poll_gnss N pf oor lc d e) (fun d' => inv d' /\ d_tel d' = d_tel d /\ d_tx d' = d_tx d).
Proof.
  intros (G & Lr & Im & C) HS. unfold poll_gnss. pose proof (firstn_le_length 255 (e_serial e)) as L.
  destruct (firstn 255 (e_serial e)) as [|b bs] eqn:Eb.
  - cbn. repeat split; try assumption; try apply G; apply C.
  - rewrite <- Eb in *. cbv zeta. eapply hoare_bind.
    + apply loop_safe; [|exact HS|left; reflexivity]. change (2 ^ 32) with 4294967296. clear - L. set (k := length _) in *. clearbody k. lia.
    + intros [n g1] _. assert (Lr' : length (firstn 255 (e_serial e) ++ 0 :: skipn (S (length (firstn 255 (e_serial e)))) (d_rx d)) = 256%nat).
      { rewrite app_length. cbn [length]. rewrite skipn_length, Lr. clear - L. set (k := length _) in *. clearbody k. lia. }
      destruct (0 <? n); cbn [hoare]; (split; [|split; reflexivity]); repeat split; cbn [set_gnss set_rx d_tx d_rx d_imu d_tel]; try assumption; try apply G; apply C.
Qed.

(** steps that only rewrite the transmit buffer *)
Definition tx_step (d : dev) (r : res (dev * list out)) : Prop := hoare r (fun '(d', _) => exists tx, good tx /\ d' = set_tx N d tx).
Lemma publish_tx_safe tp tx len : good tx -> hoare (publish_tx cfg tp tx len) (fun _ => True).
Proof. intros G. unfold publish_tx. destruct (c_broker cfg); [|exact I]. destruct (good_cstring tx G) as (s & ->). exact I. Qed.
Lemma publish_text_safe d tp text : good (d_tx d) -> tx_step d (publish_text N cfg d tp text).
Proof.
  intros G. unfold tx_step, publish_text. destruct (good_snprintf (d_tx d) text G) as (tx' & -> & G'). cbn [bind].
  eapply hoare_bind; [apply publish_tx_safe, G'|]. intros o _. exists tx'. split; [exact G'|reflexivity].
Qed.
Lemma bracketed_good ps tx : good tx -> (length (points_text ps) <= 253)%nat -> good (bracketed N ftext ps tx).
Proof.
  intros [L H] Hl. unfold bracketed. split.
  - cbn [length]. rewrite app_length. cbn [length]. rewrite skipn_length, L. lia.
  - change (91 :: points_text ps ++ 93 :: skipn (2 + length (points_text ps)) tx) with ((91 :: points_text ps) ++ 93 :: skipn (2 + length (points_text ps)) tx).
    rewrite nth_error_app2 by (cbn [length]; lia). cbn [length].
    replace (255 - S (length (points_text ps)))%nat with (S (253 - length (points_text ps))) by lia. cbn [nth_error].
    rewrite <- H. rewrite <- (firstn_skipn (2 + length (points_text ps)) tx) at 2. rewrite nth_error_app2; rewrite firstn_length; [|lia]. f_equal. lia.
Qed.
Lemma publish_points_safe d tp ps : good (d_tx d) -> (length (points_text ps) <= 253)%nat -> tx_step d (publish_points N ftext cfg d tp ps).
Proof.
  intros G Hl. unfold tx_step. rewrite publish_points_fits; [|apply G|lia].
  pose proof (bracketed_good ps (d_tx d) G Hl) as G'. eapply hoare_bind; [apply publish_tx_safe, G'|]. intros o _. eexists. split; [exact G'|reflexivity].
Qed.
Lemma send_safe d e q : good (d_tx d) -> tx_step d (send_position N oor d e q).
Proof.
  intros G. unfold tx_step, send_position. destruct (_ && _ && _ && _).
  - eapply hoare_bind; [apply pack_safe, G|]. intros [n tx] G'. exists tx. split; [exact G'|reflexivity].
  - exists (d_tx d). split; [exact G|]. destruct d; reflexivity.
Qed.
Lemma andthen_safe d r f : tx_step d r -> (forall tx, good tx -> tx_step (set_tx N d tx) (f (set_tx N d tx))) -> tx_step d (andthen N r f).
Proof.
  intros Hr Hf. unfold tx_step, andthen. eapply hoare_bind; [exact Hr|]. intros [d1 o1] (tx & G & ->).
  eapply hoare_bind; [apply Hf, G|]. intros [d2 o2] (tx2 & G2 & ->). exists tx2. split; [exact G2|]. destruct d; reflexivity.
Qed.
Lemma task_500_safe d e : inv d -> serial_ok (firstn 255 (e_serial e)) ->
  (c_sensor cfg = true -> (length (points_text (map (fun v => actual v) (shown (t_align (d_tel d))))) <= 253)%nat /\
                          (length (points_text (map (fun v => reference v) (shown (t_align (d_tel d))))) <= 253)%nat) ->
  hoare (task_500ms N T pf oor lc ftext cfg d e) (fun '(d', _) => inv d').
Proof.
  intros I0 HS HP. unfold task_500ms. eapply hoare_bind; [apply poll_safe; assumption|]. intros d1 (I1 & Ht & Hx).
  destruct (c_sensor cfg) eqn:Ec; [|exact I1]. destruct (HP eq_refl) as [P1 P2]. rewrite <- Ht in P1, P2. clear HP I0 Ht Hx d.
  destruct I1 as (G & Lr & Im & C). cbv zeta. unfold calibratedEquatorial.
  destruct (calib_total _ (t_orient (d_tel d1)) C) as (ty & m & E1 & E2). rewrite E1. cbn [bind].
  unfold getCalibratedOrientation. rewrite E2. cbn [bind].
  eapply hoare_weaken; [eapply (andthen_safe d1)|].
  1: apply send_safe, G.
  - intros t1 G1. do 9 (apply andthen_safe; [apply publish_text_safe; assumption|intros ? ?; cbn [set_tx d_timers d_tel d_gnss d_imu d_led d_heading d_pitch d_temperature d_nexstar d_gnssTimeout d_gnssAvailable d_client d_tx d_rx]]).
    apply andthen_safe; [apply publish_points_safe; [assumption|exact P1]|intros ? ?].
    apply andthen_safe; [apply publish_points_safe; [assumption|exact P2]|intros ? ?].
    cbn [set_tx d_tel]. rewrite E2. cbn [bind]. apply publish_text_safe. assumption.
  - intros [d' o] (tx & Gt & ->). repeat split; try assumption; try apply Gt; apply C.
Qed.
Lemma task_2s_safe d e : inv d -> hoare (task_2s N ftext cfg d e) (fun '(d', _) => inv d').
Proof.
  intros (G & Lr & Im & C). unfold task_2s.
  destruct (good_wr (d_tx d) 0 0 G) as (t1 & -> & G1); [lia|]. cbn [bind]. destruct (good_wr t1 1 0 G1) as (t2 & -> & G2); [lia|]. cbn [bind].
  assert (W : forall (l : list Z) i b, length l = 256%nat -> (i < 256)%nat -> exists l', wr l i b = Ok l' /\ length l' = 256%nat).
  { intros l i b L Hi. destruct (upd_some l i b) as [l' E]; [lia|]. unfold wr. rewrite E. exists l'. split; [reflexivity|]. apply upd_length in E. congruence. }
  destruct (W (d_rx d) 0%nat 1 Lr) as (r1 & -> & L1); [lia|]. cbn [bind]. destruct (W r1 1%nat 2 L1) as (r2 & -> & L2); [lia|]. cbn [bind]. cbv zeta.
  set (d1 := set_rx N (set_tx N d t2) r2). assert (I1 : inv d1) by (repeat split; try assumption; try apply G2; apply C).
  eapply hoare_bind with (P := fun '(d', _) => inv d').
  - destruct (d_gnssAvailable d1); [|exact I1]. destruct (good_snprintf (d_tx d1) (gnss_text N ftext (d_gnss d1)) (proj1 I1)) as (tx & -> & G3). cbn [bind].
    eapply hoare_bind with (P := fun _ => True).
    + destruct (c_broker cfg); [|exact I]. destruct (good_cstring tx G3) as (s & ->). exact I.
    + intros o1 _. destruct I1 as (_ & ? & ? & C1). repeat split; try assumption; try apply G3; apply C1.
  - intros [d2 o2] (G3 & ? & ? & C3). destruct (c_sensor cfg); repeat split; try assumption; try apply G3; apply C3.
Qed.
Lemma task_filter_safe d e : inv d -> hoare (task_filter N cfg d e) (fun '(d', _) => inv d').
Proof.
  intros I0. pose proof I0 as (G & Lr & Im & C). unfold task_filter. destruct (c_sensor cfg); [|exact I0]. destruct (e_acc e) as [[ax ay] az0].
  destruct (imu_ok_step N _ ax ay az0 Im) as (i & -> & O). cbn. repeat split; try assumption; try apply G; apply C.
Qed.

Lemma step_safe d ev : inv d -> safe_event d ev -> hoare (step d ev) (fun '(d', _) => inv d').
Proof.
  intros I0 HS. destruct ev as [e|req]; cbn [M_Main.step S_Safe.safe_event] in *.
  - rewrite loop_run. set (d0 := set_timers N d (snd (select (d_timers d) (e_now e)))).
    assert (I1 : inv d0) by (destruct I0 as (G & ? & ? & C); repeat split; try assumption; try apply G; apply C).
    destruct (the_task N d e); cbn [M_Main.run_task].
    + apply task_filter_safe, I1.
    + exact I1.
    + apply task_100_safe; [exact I1|exact HS].
    + apply task_500_safe; [exact I1|apply HS|apply HS].
    + exact I1.
    + apply task_2s_safe, I1.
    + exact I1.
    + exact I1.
  - unfold onBluetoothData. destruct I0 as (G & Lr & Im & C). destruct HS as [H1 H2].
    eapply hoare_bind; [apply handle_safe; [reflexivity|exact H1|exact G|exact C|exact H2]|].
    intros [[n tx] t'] (G' & C' & _). destruct (0 <? n); cbn; repeat split; try assumption; try apply G'; apply C'.
Qed.
Lemma history_safe evs : forall d, inv d -> careful d evs -> hoare (history d evs) (fun '(d', _) => inv d').
Proof.
  induction evs as [|ev evs IH]; intros d I0 HC; cbn [M_Main.history]; [exact I0|]. inversion HC as [|? ? ? HE HK]; subst.
  pose proof (step_safe d ev I0 HE) as HS. destruct (step d ev) as [[d1 o1]|u] eqn:E; [|exact HS]. cbn [bind hoare] in *.
  eapply hoare_bind; [apply IH; [exact HS|eapply HK; reflexivity]|]. intros [d2 o2] I2. exact I2.
Qed.
Lemma inv_boot : inv (boot N).
Proof. split; [split; reflexivity|]. split; [reflexivity|]. split; [apply imu_ok_init|apply calib_init]. Qed.
End Safe.
