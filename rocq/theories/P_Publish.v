(** Formatting and publishing of the alignment points. *)
From Verif Require Import Base Num M_Libc P_Libc M_Checkbits M_Linalg M_Helper M_Alignment S_Alignment M_Telescope M_Stellarium M_Gnss M_NexStar S_NexStar P_NexStar M_Led M_Imu M_Main P_Sched P_Main P_Main2.
From Coq Require Import Strings.String.
Notation length := List.length.

Lemma skipn_skipn {A} (l : list A) : forall a b, skipn a (skipn b l) = skipn (a + b) l.
Proof.
  induction l as [|x l IH]; intros a b; [now rewrite !skipn_nil|]. destruct b as [|b]; [now rewrite Nat.add_0_r|].
  rewrite Nat.add_succ_r. cbn [skipn]. apply IH.
Qed.
Lemma wr_at {A} (l : list A) : forall i x, (i < length l)%nat -> wr l i x = Ok (firstn i l ++ x :: skipn (S i) l).
Proof.
  induction l as [|y l IH]; intros [|i] x H; cbn [length] in H; try lia; [reflexivity|].
  unfold wr in *. cbn [upd]. specialize (IH i x ltac:(lia)). destruct (upd l i x) as [m|]; [|discriminate]. apply Ok1 in IH. subst m. reflexivity.
Qed.
Lemma wr_out {A} (l : list A) i x : (length l <= i)%nat -> wr l i x = UB OobWrite.
Proof. intros H. unfold wr. now rewrite upd_none. Qed.

Section Device.
Context (N : Num) (T : Trig N) (pf : platform) (oor : conv_policy) (lc : libc N).
Context (qsort : list (vpair N) -> list (vpair N)) (m9 : res (F N)) (junk : option (F N * F N)).
Context (ftext : nat -> F N -> list Z) (left_first : bool) (cfg : config).
Notation dev := (dev N). Notation env := (env N).
Notation point_text := (point_text N ftext).
Notation append_points := (append_points N ftext).
Notation publish_points := (publish_points N ftext cfg).

Definition points_text (ps : list (point N)) : list Z := List.concat (map point_text ps).

Lemma snprintf_at_fits mem pre rest text : mem = pre ++ rest -> (length text < length rest)%nat ->
  snprintf_at mem (Z.of_nat (length pre)) text = Ok (Z.of_nat (length text), pre ++ text ++ 0 :: skipn (S (length text)) rest).
Proof.
  intros -> H. unfold snprintf_at. rewrite app_length.
  replace (Z.of_nat (length pre + length rest) - Z.of_nat (length pre)) with (Z.of_nat (length rest)) by lia.
  destruct (Z.ltb_spec (Z.of_nat (length rest)) 0); [lia|]. destruct (Z.eqb_spec (Z.of_nat (length rest)) 0); [lia|].
  rewrite firstn_all2 by lia. unfold poke. rewrite !app_length. cbn [length].
  replace (Z.to_nat (Z.of_nat (length pre)) + (length text + 1) <=? length pre + length rest)%nat with true by (symmetry; apply Nat.leb_le; lia).
  cbn [bind]. do 2 f_equal. rewrite Nat2Z.id. rewrite firstn_app, firstn_all, Nat.sub_diag. cbn [firstn]. rewrite app_nil_r. f_equal.
  rewrite <- app_assoc. cbn [app]. do 2 f_equal. rewrite skipn_app, skipn_all2 by lia. cbn [app]. f_equal. lia.
Qed.

(** As long as everything fits, the texts are appended and one NUL. *)
Lemma append_points_fits ps : forall pre rest, (length (points_text ps) < length rest)%nat ->
  exists tail, append_points (pre ++ rest) (Z.of_nat (length pre)) ps
    = Ok (Z.of_nat (length pre + length (points_text ps)), pre ++ points_text ps ++ tail) /\ tail <> [] /\ tl tail = skipn (S (length (points_text ps))) rest.
Proof.
  induction ps as [|p ps IH]; intros pre rest H.
  - exists rest. cbn [M_Main.append_points points_text map List.concat length app] in *. rewrite Nat.add_0_r. split; [reflexivity|].
    destruct rest as [|x rest]; [cbn in H; lia|]. split; [discriminate|reflexivity].
  - unfold points_text in *. cbn [map List.concat] in *. rewrite app_length in H. cbn [M_Main.append_points].
    rewrite (snprintf_at_fits _ pre rest) by (try reflexivity; lia). cbn [bind].
    destruct (IH (pre ++ point_text p) (0 :: skipn (S (length (point_text p))) rest)) as (tail & E & Ne & Et).
    { cbn [length]. rewrite skipn_length. lia. }
    exists tail. rewrite app_length in E. rewrite <- Nat2Z.inj_add, app_assoc, E. split.
    + rewrite <- !app_assoc, !app_length. do 2 f_equal. lia.
    + split; [exact Ne|]. rewrite Et, app_length. transitivity (skipn (length (List.concat (map point_text ps))) (skipn (S (length (point_text p))) rest)); [reflexivity|]. rewrite skipn_skipn. f_equal. lia.
Qed.

(** Otherwise it ends behind the end of the buffer or writes there. *)
Lemma append_points_over ps : forall tx len, length tx = 256%nat -> 0 <= len -> 256 <= len + Z.of_nat (length (points_text ps)) ->
  append_points tx len ps = UB OobWrite \/
  exists tx', append_points tx len ps = Ok (len + Z.of_nat (length (points_text ps)), tx') /\ length tx' = 256%nat.
Proof.
  induction ps as [|p ps IH]; intros tx len L H0 H.
  - right. exists tx. cbn [M_Main.append_points points_text map List.concat length]. rewrite Z.add_0_r. auto.
  - unfold points_text in *. cbn [map List.concat] in *. rewrite app_length in *. cbn [M_Main.append_points].
    destruct (snprintf_at tx len (point_text p)) as [[n tx1]|u] eqn:E.
    + cbn [bind]. pose proof E as E1. apply snprintf_at_length in E1. destruct E1 as [L1 ->].
      destruct (IH tx1 (len + Z.of_nat (length (point_text p)))) as [Q|(tx' & Q & L')]; [congruence|lia|lia|left; exact Q|].
      right. exists tx'. rewrite Q. split; [|exact L']. do 2 f_equal. lia.
    + left. cbn [bind]. f_equal. unfold snprintf_at in E. rewrite L in E. destruct (Z.of_nat 256 - len <? 0) eqn:E1; [congruence|].
      apply Z.ltb_ge in E1. destruct (Z.of_nat 256 - len =? 0); [discriminate|]. destruct (poke tx _ _) as [m|v] eqn:E2; [discriminate|]. cbn [bind] in E.
      unfold poke in E2. destruct (_ <=? _)%nat; [discriminate|]. congruence.
Qed.

(** The buffer after the two brackets and the points. *)
Definition bracketed (ps : list (point N)) (tx : list Z) : list Z := 91 :: points_text ps ++ 93 :: skipn (2 + length (points_text ps)) tx.

Lemma publish_points_fits d tp ps : length (d_tx d) = 256%nat -> (length (points_text ps) <= 254)%nat ->
  publish_points d tp ps = (do o <- publish_tx cfg tp (bracketed ps (d_tx d)) (2 + Z.of_nat (length (points_text ps))); Ok (set_tx N d (bracketed ps (d_tx d)), o)).
Proof.
  intros L H. unfold M_Main.publish_points. rewrite wr_at by lia. cbn [bind firstn app].
  destruct (append_points_fits ps [91] (skipn 1 (d_tx d))) as (tail & E & Ne & Et); [rewrite skipn_length; lia|].
  cbn [app length] in E. change (Z.of_nat 1) with 1 in E. rewrite E. cbn [bind].
  rewrite wr_at by (cbn [length]; rewrite app_length; destruct tail; [contradiction|cbn [length]; lia]).
  rewrite Nat2Z.id.
  assert (F1 : firstn (1 + length (points_text ps)) (91 :: points_text ps ++ tail) = 91 :: points_text ps).
  { cbn [Nat.add firstn]. rewrite firstn_app, firstn_all, Nat.sub_diag. cbn [firstn]. now rewrite app_nil_r. }
  assert (F2 : skipn (S (1 + length (points_text ps))) (91 :: points_text ps ++ tail) = tl tail).
  { transitivity (skipn (S (length (points_text ps))) (points_text ps ++ tail)); [reflexivity|]. rewrite skipn_app, skipn_all2 by lia.
    replace (S (length (points_text ps)) - length (points_text ps))%nat with 1%nat by lia. destruct tail; reflexivity. }
  rewrite F1, F2.
  rewrite Et, skipn_skipn. cbn [bind]. unfold bracketed.
  replace (S (length (points_text ps)) + 1)%nat with (2 + length (points_text ps))%nat by lia.
  replace (Z.of_nat (1 + length (points_text ps)) + 1) with (2 + Z.of_nat (length (points_text ps))) by lia. reflexivity.
Qed.
Lemma publish_points_over d tp ps : length (d_tx d) = 256%nat -> (254 < length (points_text ps))%nat -> publish_points d tp ps = UB OobWrite.
Proof.
  intros L H. unfold M_Main.publish_points. rewrite wr_at by lia. cbn [bind firstn app].
  destruct (append_points_over ps (91 :: skipn 1 (d_tx d)) 1) as [E|(tx' & E & L')]; [cbn [length]; rewrite skipn_length; lia|lia|lia|now rewrite E|].
  rewrite E. cbn [bind]. rewrite wr_out by lia. reflexivity.
Qed.
Lemma points_text_nil : points_text [] = []. Proof. reflexivity. Qed.
Lemma points_text_comma ps : ps <> [] -> exists l, points_text ps = l ++ [44].
Proof.
  intros H. destruct (exists_last H) as (l & p & ->). unfold points_text. rewrite map_app, List.concat_app. cbn [map List.concat]. rewrite app_nil_r.
  eexists. unfold M_Main.point_text. instantiate (1 := List.concat (map point_text l) ++ [91] ++ ftext 2 (px p) ++ [44] ++ ftext 2 (py p) ++ [93]).
  rewrite <- !app_assoc. reflexivity.
Qed.
Lemma points_text_long ps : (forall v, 4 <= length (ftext 2 v))%nat -> (12 * length ps <= length (points_text ps))%nat.
Proof.
  intros H. induction ps as [|p ps IH]; [cbn; lia|]. unfold points_text in *. cbn [map List.concat length]. rewrite app_length.
  assert (12 <= length (point_text p))%nat; [|lia]. unfold M_Main.point_text. rewrite !app_length. cbn [length]. pose proof (H (px p)). pose proof (H (py p)). lia.
Qed.

(** Output that concerns neither of the two topics. *)
Definition elsewhere (x : out) : Prop :=
  match x with MqttOut tp _ | BrokerOut tp _ => tp <> topic "actual" /\ tp <> topic "reference" | _ => True end.
Lemma publish_text_elsewhere d tp text d' o : tp <> topic "actual" -> tp <> topic "reference" ->
  publish_text N cfg d tp text = Ok (d', o) -> Forall elsewhere o.
Proof.
  intros H1 H2. unfold publish_text. destruct (snprintf (d_tx d) 256 text) as [[n tx]|]; [|discriminate]. cbn [bind].
  unfold publish_tx. destruct (c_broker cfg).
  - destruct (cstring tx); [|discriminate]. cbn [bind]. intros E. apply Ok2 in E. destruct E as [_ <-]. apply Forall_app. split.
    + destruct (c_mqtt cfg); [|constructor]. unfold mqtt_publish. destruct (_ <=? _); repeat constructor; assumption.
    + repeat constructor; assumption.
  - cbn [bind]. intros E. apply Ok2 in E. destruct E as [_ <-]. rewrite app_nil_r. destruct (c_mqtt cfg); [|constructor]. unfold mqtt_publish. destruct (_ <=? _); repeat constructor; assumption.
Qed.
Ltac peel E := apply andthen_inv in E; let dd := fresh "dd" in let oo := fresh "oo" in let o2 := fresh "o2" in let H := fresh "H" in let E2 := fresh "E" in
  destruct E as (dd & oo & o2 & H & E2 & ->); cbv beta in E2.
(** the two calls inside the 500 ms task *)
Lemma task_500_points d e d' o : task_500ms N T pf oor lc ftext cfg d e = Ok (d', o) -> sized N d -> c_sensor cfg = true ->
  exists dx ty da oa db ob dc oc ox oy, d_tel dx = d_tel d /\ length (d_tx dx) = 256%nat /\
    publish_text N cfg dx (topic "alignment") (alignment_text N (t_align (d_tel d)) ty) = Ok (da, oa) /\
    publish_points da (topic "actual") (map (fun v => actual v) (stored (t_align (d_tel d)))) = Ok (db, ob) /\
    publish_points db (topic "reference") (map (fun v => reference v) (stored (t_align (d_tel d)))) = Ok (dc, oc) /\
    o = ox ++ ob ++ oc ++ oy /\ Forall elsewhere ox /\ Forall elsewhere oy.
Proof.
  intros E S Hc. unfold task_500ms in E. destruct (poll_gnss N pf oor lc d e) as [d1|] eqn:Ep; [|discriminate]. cbn [bind] in E. rewrite Hc in E.
  assert (S1 : sized N d1 /\ d_tel d1 = d_tel d).
  { unfold poll_gnss in Ep. destruct (firstn 255 (e_serial e)) as [|b bs] eqn:Ef.
    - apply Ok1 in Ep. subst d1. split; [exact S|reflexivity].
    - destruct (fromBuffer N pf oor lc _ (b :: bs)) as [[n g]|]; [|discriminate]. cbn [bind] in Ep.
      assert (Hl : (length (b :: bs) <= 255)%nat) by (rewrite <- Ef, firstn_length; lia).
      assert (length ((b :: bs) ++ 0 :: skipn (Datatypes.S (length (b :: bs))) (d_rx d)) = 256%nat).
      { destruct S as [_ S]. rewrite app_length. cbn [length] in *. rewrite skipn_length. rewrite S. lia. }
      destruct (0 <? n); apply Ok1 in Ep; subst d1; (split; [split; [exact (proj1 S)|assumption]|reflexivity]). }
  destruct S1 as [S1 Ht]. rewrite Ht in *.
  destruct (calibratedEquatorial N T (d_tel d) _ _) as [[q ty]|]; [|discriminate]. cbn [bind] in E.
  peel E. apply send_position_frame in H. destruct H as [H Hs].
  peel E0. peel E. peel E0. peel E. peel E0. peel E. peel E0. peel E. peel E0. peel E. peel E0.
  match type of E with (do m <- getTransformationMatrix N ?a ?b; _) = _ => destruct (getTransformationMatrix N a b) as [mm|]; [|discriminate] end.
  cbn [bind] in E.
  assert (P : tx_only N d1 dd7).
  { apply publish_text_frame in H0, H1, H2, H3, H4, H5, H6, H7. destruct H0 as [H0 _], H1 as [H1 _], H2 as [H2 _], H3 as [H3 _], H4 as [H4 _], H5 as [H5 _], H6 as [H6 _], H7 as [H7 _].
    eauto 12 using tx_only_trans. }
  destruct P as (tx7 & P & L7). assert (T7 : d_tel dd7 = d_tel d) by (rewrite P; exact Ht).
  rewrite T7 in H8.
  exists dd7, ty, dd8, oo8, dd9, oo9, dd10, oo10, (oo ++ oo0 ++ oo1 ++ oo2 ++ oo3 ++ oo4 ++ oo5 ++ oo6 ++ oo7 ++ oo8), o0.
  split; [exact T7|]. split; [rewrite P; cbn [set_tx d_tx]; rewrite L7; exact (proj1 S1)|].
  split; [exact H8|]. split; [exact H9|]. split; [exact H10|].
  split; [rewrite <- !app_assoc; reflexivity|]. split.
  - repeat (apply Forall_app; split); try (eapply publish_text_elsewhere; [| |eassumption]; discriminate).
    destruct Hs as [->|((b & -> & _) & _)]; repeat constructor.
  - eapply publish_text_elsewhere; [| |eassumption]; discriminate.
Qed.
End Device.
