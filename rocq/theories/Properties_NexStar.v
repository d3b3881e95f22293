(** C08-C13, C15, C16, C77: the NexStar request handler. *)
From Verif Require Import Base Num M_Libc M_Linalg M_Helper M_Alignment M_Telescope M_Gnss M_NexStar S_NexStar M_Stellarium P_Libc P_NexStar.

Section Every.
Context (N : Num) (T : Trig N) (pf : platform) (oor : conv_policy).
Context (qsort : list (vpair N) -> list (vpair N)) (m9 : res (F N)) (junk : option (F N * F N)).
Notation handle := (handleRequest N T pf oor qsort m9 junk).
Notation len l := (Z.of_nat (length l)).
(** The memory behind the request pointer is the request followed by anything ([extra]). *)

(** ** C08 *)
Theorem C08_documented_reply : forall t g req extra resp max text,
  answers t g req text -> bytes_ok req -> len text < max -> max <= len resp ->
  handle t g (req ++ extra) (len req) resp max = Ok (len text, written text resp, t).
Proof.
  intros t g req extra resp max text Ha Hb H1 H2. rewrite handle_act. rewrite (act_answers N t g req text Hb Ha).
  unfold perform, reply. rewrite snprintf_fits by lia. reflexivity.
Qed.
Theorem C08_unknown_request : forall t g req extra resp max,
  ~ recognised req -> arduino pf = false \/ 8 <= len (req ++ extra) ->
  handle t g (req ++ extra) (len req) resp max = Ok (0, resp, t).
Proof.
  intros t g req extra resp max Hr Hm. rewrite handle_act. rewrite (proj2 (act_none N t g req) Hr).
  unfold perform, reads8. destruct (arduino pf) eqn:Ea; [|reflexivity].
  destruct Hm as [Hm|Hm]; [congruence|]. set (m := req ++ extra) in *. clearbody m.
  rewrite !(rd_inb m _ 0) by lia. reflexivity.
Qed.
(** every reply ends in '#', and the returned number is its length *)
Theorem C08_terminated : forall t g req extra resp max n resp' t',
  recognised req -> n < max -> max <= len resp ->
  handle t g (req ++ extra) (len req) resp max = Ok (n, resp', t') ->
  exists body, resp' = written (body ++ [35]) resp /\ n = len (body ++ [35]).
Proof.
  intros t g req extra resp max n resp' t' Hr H1 H2 E. rewrite handle_act in E.
  assert (G : forall text t1, reply N t1 resp max text = Ok (n, resp', t') -> (exists pre, text = pre ++ [35]) ->
     exists body, resp' = written (body ++ [35]) resp /\ n = len (body ++ [35])).
  { intros text t1 Er (pre & ->). exists pre. unfold reply in Er.
    assert (En : n = len (pre ++ [35])).
    { unfold snprintf in Er. destruct (max <=? 0); [cbn [bind] in Er; congruence|].
      destruct (poke _ _ _); cbn [bind] in Er; [congruence|discriminate]. }
    rewrite snprintf_fits in Er by lia. cbn [bind] in Er. split; congruence. }
  destruct (act N t g req) as [text| | | |] eqn:Ea; cbn [perform] in E.
  - eapply G; [exact E|]. eapply act_reply_form. exact Ea.
  - destruct (degrees_byte _ _ _); [|discriminate]. cbn [bind] in E. destruct (minutes_byte _ _ _); [|discriminate]. cbn [bind] in E.
    destruct (degrees_byte _ _ _); [|discriminate]. cbn [bind] in E. destruct (minutes_byte _ _ _); [|discriminate]. cbn [bind] in E.
    eapply G; [exact E|]. match goal with |- exists pre, ?l = _ => exists (removelast l); reflexivity end.
  - destruct (calibratedEquatorial _ _ _ _ _) as [[q ty]|]; [|discriminate]. cbn [bind] in E.
    destruct (word_of _ _ _); [|discriminate]. cbn [bind] in E. destruct (word_of _ _ _); [|discriminate]. cbn [bind] in E.
    eapply G; [exact E|]. match goal with |- exists pre, ?l = _ => exists (removelast l); reflexivity end.
  - destruct (do_sync _ _ _ _ _ _ _ _ _); [|discriminate]. cbn [bind] in E.
    eapply G; [exact E|]. exists []. reflexivity.
  - apply act_none in Ea. contradiction.
Qed.
(** the position reply *)
Theorem C08_position_reply : forall t g rest extra resp max, 18 < max -> max <= len resp ->
  handle t g (101 :: rest ++ extra) (len (101 :: rest)) resp max =
    (do '(q, _) <- calibratedEquatorial N T t (g_latitude g) (getLocalSiderealTimeDegrees N (g_time g) (g_longitude g));
     do w1 <- to_u32 N oor (fmul N (fdiv N (ra q) (fZ N 360)) (fZ N 4294967296));
     do w2 <- to_u32 N oor (fmul N (fdiv N (dec q) (fZ N 360)) (fZ N 4294967296));
     Ok (18, written (position_reply w1 w2) resp, t)).
Proof.
  intros. change (101 :: rest ++ extra) with ((101 :: rest) ++ extra). rewrite handle_act, act_position. unfold perform, lst_of.
  destruct (calibratedEquatorial _ _ _ _ _) as [[q ty]|u]; [|reflexivity]. cbn [bind]. unfold word_of.
  destruct (to_u32 _ _ _) as [w1|]; [|reflexivity]. cbn [bind]. destruct (to_u32 _ _ _) as [w2|]; [|reflexivity]. cbn [bind].
  unfold reply. rewrite !hex_upper_hex8.
  change (hex_upper w1 ++ [44] ++ hex_upper w2 ++ [35]) with (position_reply w1 w2). rewrite snprintf_fits; [reflexivity| |assumption].
  change (length (position_reply w1 w2)) with 18%nat. lia.
Qed.

(** ** C09 *)
Theorem C09_only_sync_changes_telescope : forall t g req extra resp max n resp' t',
  handle t g (req ++ extra) (len req) resp max = Ok (n, resp', t') -> ~ is_sync req -> t' = t.
Proof.
  intros t g req extra resp max n resp' t' E Hs. rewrite handle_act in E.
  assert (G : forall text t1, reply N t1 resp max text = Ok (n, resp', t') -> t' = t1).
  { intros text t1 Er. unfold reply in Er. destruct (snprintf _ _ _) as [[? ?]|]; cbn [bind] in Er; congruence. }
  destruct (act N t g req) as [text| | | |] eqn:Ea; cbn [perform] in E.
  - eauto.
  - destruct (degrees_byte _ _ _); [|discriminate]. cbn [bind] in E. destruct (minutes_byte _ _ _); [|discriminate]. cbn [bind] in E.
    destruct (degrees_byte _ _ _); [|discriminate]. cbn [bind] in E. destruct (minutes_byte _ _ _); [|discriminate]. cbn [bind] in E. eauto.
  - destruct (calibratedEquatorial _ _ _ _ _) as [[q ty]|]; [|discriminate]. cbn [bind] in E.
    destruct (word_of _ _ _); [|discriminate]. cbn [bind] in E. destruct (word_of _ _ _); [|discriminate]. cbn [bind] in E. eauto.
  - apply act_sync in Ea. contradiction.
  - destruct (reads8 _ _); [|discriminate]. cbn [bind] in E. congruence.
Qed.
(** and what a sync changes: the points (by one addReferencePoint) and the flag, not the orientation *)
Theorem C09_sync_effect : forall t g req extra resp max n resp' t',
  handle t g (req ++ extra) (len req) resp max = Ok (n, resp', t') -> is_sync req ->
  t_cal t' = true /\ t_orient t' = t_orient t /\
  exists r d, addReferencePoint N T qsort m9 junk t r d (g_latitude g) (getLocalSiderealTimeDegrees N (g_time g) (g_longitude g))
              = Ok (Tele (t_align t') (t_orient t') (t_cal t)).
Proof.
  intros t g req extra resp max n resp' t' E Hs. rewrite handle_act in E. rewrite (proj2 (act_sync N t g req) Hs) in E.
  cbn [perform] in E. unfold do_sync, lst_of in E.
  destruct (field pf (req ++ extra) 1) as [w1|]; [|discriminate]. cbn [bind] in E. destruct (field pf (req ++ extra) 10) as [w2|]; [|discriminate]. cbn [bind] in E.
  match type of E with context [addReferencePoint N T qsort m9 junk t ?r ?d _ _] => set (rr := r) in E; set (dd := d) in E end.
  destruct (addReferencePoint _ _ _ _ _ _ _ _ _ _) as [t1|] eqn:Et; [|discriminate]. cbn [bind] in E.
  unfold reply in E. destruct (snprintf _ _ _) as [[? ?]|]; [|discriminate]. cbn [bind] in E.
  assert (Et' : t' = Tele (t_align t1) (t_orient t1) true) by congruence. subst t'. cbn [t_cal t_orient t_align].
  assert (K : t_orient t1 = t_orient t /\ t_cal t1 = t_cal t).
  { unfold addReferencePoint in Et. destruct (addVertexPair _ _ _ _ _) as [[? ?]|]; [|discriminate]. cbn [bind] in Et.
    destruct (TriangulateActual _ _ _ _); [|discriminate]. cbn [bind] in Et. injection Et as <-. split; reflexivity. }
  destruct K as [K1 K2]. split; [reflexivity|]. split; [exact K1|]. exists rr, dd. rewrite <- K2. destruct t1. exact Et.
Qed.

(** ** C10 *)
(** No request byte at or beyond the given length is read (host build). *)
Theorem C10_reads_only_the_request : arduino pf = false -> forall t g req extra resp max,
  handle t g (req ++ extra) (len req) resp max = handle t g req (len req) resp max.
Proof.
  intros Ha t g req extra resp max. rewrite handle_act. pose proof (handle_act N T pf oor qsort m9 junk t g req [] resp max) as H.
  rewrite app_nil_r in H. rewrite H. clear H. destruct (act N t g req) eqn:E; try reflexivity.
  - apply act_sync in E. cbn [perform]. rewrite (do_sync_app N T pf qsort m9 junk t g req extra E). reflexivity.
  - cbn [perform]. unfold reads8. rewrite Ha. reflexivity.
Qed.
(** The same on the device, except for the trace output of unknown requests, which reads eight bytes. *)
Theorem C10_reads_only_the_request_device : forall t g req extra resp max, recognised req ->
  handle t g (req ++ extra) (len req) resp max = handle t g req (len req) resp max.
Proof.
  intros t g req extra resp max Hr. rewrite handle_act. pose proof (handle_act N T pf oor qsort m9 junk t g req [] resp max) as H.
  rewrite app_nil_r in H. rewrite H. clear H. destruct (act N t g req) eqn:E; try reflexivity.
  - apply act_sync in E. cbn [perform]. rewrite (do_sync_app N T pf qsort m9 junk t g req extra E). reflexivity.
  - apply act_none in E. contradiction.
Qed.
(** Reply bytes at or beyond the given size are never touched, whatever the request. *)
Theorem C10_writes_only_the_reply : forall t g req extra resp max n resp' t', 0 <= max <= len resp ->
  handle t g (req ++ extra) (len req) resp max = Ok (n, resp', t') ->
  length resp' = length resp /\ skipn (Z.to_nat max) resp' = skipn (Z.to_nat max) resp /\ 0 <= n <= 18.
Proof.
  intros t g req extra resp max n resp' t' Hm E. rewrite handle_act in E.
  assert (G : forall text t1, reply N t1 resp max text = Ok (n, resp', t') -> (length text <= 18)%nat ->
      length resp' = length resp /\ skipn (Z.to_nat max) resp' = skipn (Z.to_nat max) resp /\ 0 <= n <= 18).
  { intros text t1 Er Hl. unfold reply in Er. destruct (snprintf_general resp max text) as (h & E1 & E2 & _); [lia|].
    rewrite E1 in Er. cbn [bind] in Er. injection Er as <- <- _.
    split; [rewrite app_length, skipn_length; lia|]. split; [|lia].
    rewrite skipn_app, skipn_all2 by lia. cbn [app]. rewrite skipn_skipn'. f_equal. lia. }
  destruct (act N t g req) as [text| | | |] eqn:Ea; cbn [perform] in E.
  - eapply G; [exact E|]. unfold act in Ea. destruct req as [|c r]; [discriminate|].
    repeat match type of Ea with (if ?b then _ else _) = _ => destruct b end; try discriminate; injection Ea as <-; cbn [length app pc]; lia.
  - destruct (degrees_byte _ _ _); [|discriminate]. cbn [bind] in E. destruct (minutes_byte _ _ _); [|discriminate]. cbn [bind] in E.
    destruct (degrees_byte _ _ _); [|discriminate]. cbn [bind] in E. destruct (minutes_byte _ _ _); [|discriminate]. cbn [bind] in E.
    eapply G; [exact E|]. cbn [length app pc]. lia.
  - destruct (calibratedEquatorial _ _ _ _ _) as [[q ty]|]; [|discriminate]. cbn [bind] in E.
    destruct (word_of _ _ _); [|discriminate]. cbn [bind] in E. destruct (word_of _ _ _); [|discriminate]. cbn [bind] in E.
    eapply G; [exact E|]. cbn [length app hex8 map]. lia.
  - destruct (do_sync _ _ _ _ _ _ _ _ _); [|discriminate]. cbn [bind] in E. eapply G; [exact E|]. cbn [length]. lia.
  - destruct (reads8 _ _); [|discriminate]. cbn [bind] in E. injection E as <- <- _. split; [auto|split; [auto|lia]].
Qed.
(** Every request but position and sync runs without touching a buffer out of bounds; the only thing that can
    go wrong is a coordinate of the location that does not fit a byte. *)
Theorem C10_no_buffer_error : forall t g req resp max u, 0 <= max <= len resp -> arduino pf = false -> (forall z u, oor z = UB u -> u = BadConv) ->
  handle t g req (len req) resp max = UB u -> u = BadConv \/ asks 101 req \/ is_sync req.
Proof.
  intros t g req resp max u Hm Ha Ho E. pose proof (handle_act N T pf oor qsort m9 junk t g req [] resp max) as H.
  rewrite app_nil_r in H. rewrite H in E. clear H.
  assert (G : forall text t1, reply N t1 resp max text <> UB u).
  { intros text t1 Er. unfold reply in Er. destruct (snprintf_general resp max text) as (h & E1 & _); [lia|]. rewrite E1 in Er. discriminate. }
  assert (Gu : forall v, to_u8 N oor v = UB u -> u = BadConv).
  { intros v Hv. unfold to_u8 in Hv. destruct (ftrunc N v); [|congruence]. destruct (_ && _); [discriminate|]. eauto. }
  destruct (act N t g req) as [text| | | |] eqn:Ea; cbn [perform] in E.
  - exfalso. eapply G; exact E.
  - left. destruct (degrees_byte N oor (g_latitude g)) eqn:E1; [|cbn [bind] in E; injection E as ->; exact (Gu _ E1)]. cbn [bind] in E.
    destruct (minutes_byte N oor (g_latitude g)) eqn:E2; [|cbn [bind] in E; injection E as ->; exact (Gu _ E2)]. cbn [bind] in E.
    destruct (degrees_byte N oor (g_longitude g)) eqn:E3; [|cbn [bind] in E; injection E as ->; exact (Gu _ E3)]. cbn [bind] in E.
    destruct (minutes_byte N oor (g_longitude g)) eqn:E4; [|cbn [bind] in E; injection E as ->; exact (Gu _ E4)]. cbn [bind] in E.
    exfalso. eapply G; exact E.
  - right. left. unfold act in Ea. destruct req as [|c r]; [discriminate|].
    repeat match type of Ea with (if ?b then _ else _) = _ => destruct b eqn:?; try discriminate end.
    match goal with H : (c =? 101) = true |- _ => apply Z.eqb_eq in H; subst c end. exists r. reflexivity.
  - right. right. apply act_sync in Ea. exact Ea.
  - unfold reads8 in E. rewrite Ha in E. discriminate.
Qed.
(** On the device an unknown request shorter than eight bytes is read beyond its end. *)
Theorem C78_unknown_request_overread_refuted : arduino pf = true -> forall t g req resp max,
  ~ recognised req -> (length req < 8)%nat -> handle t g req (len req) resp max = UB OobRead.
Proof.
  intros Ha t g req resp max Hr Hl. pose proof (handle_act N T pf oor qsort m9 junk t g req [] resp max) as H.
  rewrite app_nil_r in H. rewrite H. rewrite (proj2 (act_none N t g req) Hr). cbn [perform]. unfold reads8. rewrite Ha.
  do 8 (destruct req as [|? req]; [reflexivity|]). cbn [length] in Hl. lia.
Qed.

(** ** C11 *)
Theorem C11_goto_is_not_nexstar : forall t g data extra resp max o o' ts,
  bytes_ok data -> unpackPosition N ts data (len data) o = Ok (true, o') ->
  nth 1 data 0 = 0 -> nth 0 data 0 <= 66 ->
  handle t g (data ++ extra) (len data) resp max = Ok (0, resp, t).
Proof.
  intros t g data extra resp max o o' ts Hb Hu H1 H0.
  assert (Hl : (20 <= length data)%nat /\ 20 <= nth 0 data 0).
  { unfold unpackPosition in Hu. destruct data as [|d0 [|d1 data]]; try discriminate. cbn [rd nth_error bind] in Hu.
    cbn [nth] in *. subst d1. unfold rd in Hu. cbn [nth_error bind] in Hu.
    destruct ((u32 (d0 + Z.shiftl 0 8) <? 20) || (len (d0 :: 0 :: data) <? u32 (d0 + Z.shiftl 0 8))) eqn:Eo; [discriminate|].
    apply orb_false_iff in Eo. destruct Eo as [E1 E2]. apply Z.ltb_ge in E1, E2.
    inversion Hb as [|? ? Hd0 _]; subst. unfold is_byte in Hd0.
    assert (Eu : u32 (d0 + Z.shiftl 0 8) = d0).
    { rewrite Z.shiftl_0_l, Z.add_0_r. apply Z.mod_small. lia. }
    rewrite Eu in E1, E2. lia. }
  destruct data as [|c r]; [cbn in Hl; lia|]. cbn [nth length] in *. apply C08_unknown_request.
  - intros [(x & r' & E)|[(l & r' & Hi & E)|[(d & r' & _ & E)|(r' & E & _)]]]; injection E as E _; subst; cbn [In] in *; try lia; decompose [or] Hi; lia.
  - right. rewrite app_length. cbn [length]. lia.
Qed.

(** ** C12 *)
Theorem C12_sync_fields : forall t g w1 w2 f1 f2 sep rest extra resp max,
  word w1 -> word w2 -> spells w1 f1 -> spells w2 f2 -> 1 < max -> max <= len resp ->
  let angle w := fdiv N (fmul N (fZ N w) (fZ N 360)) (fZ N 4294967296) in
  let dec := if flt N (fZ N 270) (angle w2) then fsub N (angle w2) (fZ N 360) else angle w2 in
  let req := sync_request f1 sep f2 rest in
  handle t g (req ++ extra) (len req) resp max =
    (do t' <- addReferencePoint N T qsort m9 junk t (angle w1) dec (g_latitude g) (getLocalSiderealTimeDegrees N (g_time g) (g_longitude g));
     Ok (1, written [35] resp, Tele (t_align t') (t_orient t') true)).
Proof.
  intros t g w1 w2 f1 f2 sep rest extra resp max W1 W2 S1 S2 H1 H2 angle dec req.
  assert (L1 : length f1 = 8%nat) by (apply (spells_length w1); exact S1).
  assert (L2 : length f2 = 8%nat) by (apply (spells_length w2); exact S2).
  assert (Hs : is_sync req).
  { exists (f1 ++ sep :: f2 ++ rest). split; [reflexivity|]. rewrite app_length. cbn [length]. rewrite app_length. lia. }
  rewrite handle_act, (proj2 (act_sync N t g req) Hs). cbn [perform]. rewrite do_sync_app by exact Hs.
  pose proof (spells_field pf req w1 f1 [115] (sep :: f2 ++ rest) W1 S1 eq_refl) as E1. change (length [115]) with 1%nat in E1.
  unfold do_sync. rewrite E1.
  cbn [bind].
  pose proof (spells_field pf req w2 f2 (115 :: f1 ++ [sep]) rest W2 S2) as E2.
  replace (length (115 :: f1 ++ [sep])) with 10%nat in E2 by (cbn [length]; rewrite app_length; cbn [length]; lia).
  rewrite E2 by (unfold req, sync_request; cbn [app]; rewrite <- app_assoc; reflexivity). cbn [bind].
  fold (angle_of N w1). fold (angle_of N w2). change (angle_of N w1) with (angle w1). change (angle_of N w2) with (angle w2).
  unfold lst_of. fold dec. destruct (addReferencePoint _ _ _ _ _ _ _ _ _ _) as [t'|]; [|reflexivity]. cbn [bind].
  unfold reply. rewrite snprintf_fits; [reflexivity|cbn [length]; lia|lia].
Qed.

(** ** C16 *)
Theorem C16_time : forall t g rest extra resp max, let u := g_time g in
  0 <= tm_hour u < 24 -> 0 <= tm_min u < 60 -> 0 <= tm_sec u <= 60 -> 1 <= tm_mon u <= 12 -> 1 <= tm_mday u <= 31 -> 2000 <= tm_year u <= 2255 ->
  bytes_ok rest -> 9 < max -> max <= len resp ->
  handle t g (104 :: rest ++ extra) (len (104 :: rest)) resp max =
    Ok (9, written [tm_hour u; tm_min u; tm_sec u; tm_mon u; tm_mday u; tm_year u - 2000; 0; 0; 35] resp, t).
Proof.
  intros t g rest extra resp max u Hh Hm Hs Hmo Hd Hy Hb H1 H2.
  pose proof (C08_documented_reply t g (104 :: rest) extra resp max _ (A_time t g rest)) as H. cbn [app] in H. rewrite H.
  - fold u. unfold u8. rewrite !Z.mod_small by lia. reflexivity.
  - constructor; [red; lia|exact Hb].
  - cbn [length]. lia.
  - exact H2.
Qed.
End Every.

(** the hypotheses of C08-C11 are met *)
Example C08_nonvacuous (N : Num) (t : telescope N) g :
  answers t g [75; 120] [120; 35] /\ bytes_ok [75; 120] /\ recognised [101] /\ ~ recognised [75] /\ ~ is_sync [101] /\
  is_sync (115 :: repeat 48 17) /\ ~ recognised (0x14 :: repeat 0 19).
Proof.
  split; [constructor|]. split; [apply bytes_okb_ok; reflexivity|]. split; [right; left; exists 101, []; cbn; intuition|].
  split. { intros [(c & r & E)|[(l & r & Hi & E)|[(d & r & _ & E)|(r & E & _)]]]; try discriminate. injection E as <- <-. cbn [In] in Hi. intuition lia. }
  split; [intros (r & E & _); discriminate|]. split; [exists (repeat 48 17); split; [reflexivity|cbn; lia]|].
  intros [(c & r & E)|[(l & r & Hi & E)|[(d & r & _ & E)|(r & E & _)]]]; try discriminate. injection E as <- <-. cbn [In] in Hi. intuition lia.
Qed.
(** a goto message as Stellarium sends it is accepted by unpackPosition *)
Example C11_nonvacuous (N : Num) o : exists o', unpackPosition N false (20 :: 0 :: 0 :: 0 :: repeat 1 16) 20 o = Ok (true, o').
Proof. eexists. reflexivity. Qed.
Print Assumptions C08_documented_reply. Print Assumptions C12_sync_fields. Print Assumptions C10_writes_only_the_reply.
