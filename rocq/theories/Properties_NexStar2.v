(** C12 (values), C13, C15, C77, C79: NexStar answers in exact and in IEEE arithmetic. *)
From Verif Require Import Base Num M_Libc M_Linalg M_Helper M_Alignment S_Alignment M_Telescope M_Gnss M_NexStar S_NexStar S_Sky.
From Verif Require Import P_Alignment P_AlignState P_AlignR P_Round P_Sky P_NexStar P_NexStarR Properties_Alignment Properties_Sky Properties_NexStar P_AlignWitness.
From Coq Require Import Reals Lra Psatz.
From Flocq Require Import Core.
Open Scope R_scope.
Notation len l := (Z.of_nat (length l)).

(** ** C12: the angles handed to addReferencePoint are exact, in real and in binary64 arithmetic *)
Theorem C12_angles_exact : forall w, word w ->
  let angle (N : Num) := fdiv N (fmul N (fZ N w) (fZ N 360)) (fZ N 4294967296) in
  let signed (N : Num) := if flt N (fZ N 270) (angle N) then fsub N (angle N) (fZ N 360) else angle N in
  (angle NumR : R) = IZR w * 360 / 4294967296 /\ (angle NumB : R) = IZR w * 360 / 4294967296 /\
  (signed NumR : R) = (if (3221225472 <? w)%Z then IZR w - 4294967296 else IZR w) * 360 / 4294967296 /\
  (signed NumB : R) = (if (3221225472 <? w)%Z then IZR w - 4294967296 else IZR w) * 360 / 4294967296.
Proof.
  intros w Hw angle signed. pose proof (angle_R w) as ER. pose proof (angle_B w Hw) as EB.
  change (angle_of NumR w) with (angle NumR) in ER. change (angle_of NumB w) with (angle NumB) in EB.
  split; [exact ER|]. split; [exact EB|]. unfold word in Hw.
  assert (E270 : (fZ NumB 270 : R) = 270) by (apply (b64_of_int 270); simpl; lia).
  unfold signed. destruct (Z.ltb_spec 3221225472 w) as [Hlt|Hge].
  - pose proof (proj2 (above_270 w) Hlt) as Ha. split.
    + replace (flt NumR (fZ NumR 270) (angle NumR)) with true by (symmetry; apply Rlt_bool_true; cbn [fZ NumR]; rewrite ER; lra).
      change ((angle NumR : R) - 360 = (IZR w - 4294967296) * 360 / 4294967296). rewrite ER. field.
    + replace (flt NumB (fZ NumB 270) (angle NumB)) with true by (symmetry; apply Rlt_bool_true; rewrite E270, EB; lra).
      pose proof (south_B w ltac:(lia)) as ES. change (angle_of NumB w) with (angle NumB) in ES. rewrite ES. field.
  - assert (Ha : ~ IZR w * 360 / 4294967296 > 270) by (intros Hc; apply above_270 in Hc; lia). split.
    + replace (flt NumR (fZ NumR 270) (angle NumR)) with false by (symmetry; apply Rlt_bool_false; cbn [fZ NumR]; rewrite ER; lra). exact ER.
    + replace (flt NumB (fZ NumB 270) (angle NumB)) with false by (symmetry; apply Rlt_bool_false; rewrite E270, EB; lra). exact EB.
Qed.
Example C12_nonvacuous : word 0x2DE3C3B7 /\ spells 0x2DE3C3B7 [50; 100; 69; 51; 99; 51; 66; 55]%Z /\ (* "2dE3c3B7" *)
  spells 0x0F20C28D (hex_upper 0x0F20C28D).
Proof.
  split; [unfold word; lia|]. split; [|apply hex_upper_spells].
  unfold spells. repeat (apply Forall2_cons; [vm_compute; intuition discriminate|]). apply Forall2_nil.
Qed.

(** ** C13 *)
(** [a]: any alignment reached by any history, holding at most one point, none of it at the current orientation. *)
Theorem C13_synced_is_reported : forall qsort x j ops a p cal ra dec lat lst, permuting NumR qsort -> never_more_than NumR 63 ops ->
  reaches NumR qsort x j ops a -> (numVertices a <= 1)%Z -> existsb (fun q => same NumR q p) (map actual (stored a)) = false ->
  exists t' q ty, addReferencePoint NumR TrigR qsort (Ok x) (Some j) (Tele a p cal) ra dec lat lst = Ok t' /\
    calibratedEquatorial NumR TrigR t' lat lst = Ok (q, ty) /\
    vec (RA q) (DEC q) = vec ra dec /\ (-90 <= dec <= 90 -> DEC q = dec) /\
    (-90 < dec < 90 -> 0 <= ra < 360 -> RA q = ra).
Proof.
  intros qsort x j ops a p cal ra dec lat lst Hq Hnm Hr Hn Hd.
  destruct (sync_reported qsort x j Hq ops a p cal ra dec lat lst Hnm Hr Hn Hd) as (t' & q & ty & E1 & _ & _ & _ & E2 & ->).
  exists t'. eexists. exists ty. split; [exact E1|]. split; [exact E2|].
  destruct (C30_roundtrip_equatorial ra dec lat lst) as (H1 & H2 & _ & H3). auto.
Qed.
Print Assumptions C13_synced_is_reported.
(** The hypotheses are met by a telescope that was just switched on, and by one with a first point elsewhere. *)
Example C13_nonvacuous : forall qsort x j, reaches NumR qsort x j [] (align_init NumR) /\ numVertices (align_init NumR) = 0%Z /\
  never_more_than NumR 63 [].
Proof. intros. split; [reflexivity|]. split; [reflexivity|]. intros k. rewrite firstn_nil. cbn. lia. Qed.

Section EndToEnd.
Context (pf : platform) (oor : conv_policy) (qsort : list (vpair NumR) -> list (vpair NumR)) (x : F NumR) (j : F NumR * F NumR).
Notation handle := (handleRequest NumR TrigR pf oor qsort (Ok x) (Some j)).
Hypothesis Hq : permuting NumR qsort.

Lemma word_of_nat w (v : R) : word w -> v = IZR w * 360 / 4294967296 -> word_of NumR oor v = Ok w.
Proof.
  intros Hw ->. unfold word_of, to_u32. cbn [ftrunc fmul fdiv fZ NumR].
  replace (IZR w * 360 / 4294967296 / 360 * 4294967296) with (IZR w) by field. rewrite Ztrunc_IZR.
  unfold word in Hw. replace ((0 <=? w)%Z && (w <? 4294967296)%Z) with true by (symmetry; apply andb_true_iff; split; [apply Z.leb_le|apply Z.ltb_lt]; lia).
  reflexivity.
Qed.
Lemma word_of_neg w (v : R) : (w < 0)%Z -> v = IZR w * 360 / 4294967296 -> word_of NumR oor v = oor w.
Proof.
  intros Hw ->. unfold word_of, to_u32. cbn [ftrunc fmul fdiv fZ NumR].
  replace (IZR w * 360 / 4294967296 / 360 * 4294967296) with (IZR w) by field. rewrite Ztrunc_IZR.
  replace (0 <=? w)%Z with false by (symmetry; apply Z.leb_gt; lia). reflexivity.
Qed.

Lemma sync_then_position : forall ops a p cal g w1 w2 f1 f2 sep rest extra resp max,
  never_more_than NumR 63 ops -> reaches NumR qsort x j ops a -> (numVertices a <= 1)%Z ->
  existsb (fun q => same NumR q p) (map actual (stored a)) = false ->
  word w1 -> word w2 -> spells w1 f1 -> spells w2 f2 -> (18 < max)%Z -> (max <= len resp)%Z ->
  let req := sync_request f1 sep f2 rest in
  let d := (if (3221225472 <? w2)%Z then IZR w2 - 4294967296 else IZR w2) * 360 / 4294967296 in
  -90 < d < 90 ->
  exists t' resp', handle (Tele a p cal) g (req ++ extra) (len req) resp max = Ok (1%Z, resp', t') /\
    t_cal t' = true /\
    forall rest' extra', handle t' g (101%Z :: rest' ++ extra') (len (101%Z :: rest')) resp max =
     (do w <- word_of NumR oor d; Ok (18%Z, written (position_reply w1 w) resp, t')).
Proof.
  intros ops a p cal g w1 w2 f1 f2 sep rest extra resp max Hnm Hr Hn Hd W1 W2 S1 S2 H1 H2 req d Hdec.
  destruct (C12_angles_exact w1 W1) as (A1 & _). destruct (C12_angles_exact w2 W2) as (_ & _ & A2 & _).
  pose proof (C12_sync_fields NumR TrigR pf oor qsort (Ok x) (Some j) (Tele a p cal) g w1 w2 f1 f2 sep rest extra resp max W1 W2 S1 S2 ltac:(lia) H2) as E.
  cbv zeta in E, A1, A2. fold req in E.
  match type of E with context [addReferencePoint _ _ _ _ _ _ ?r ?dd ?la ?l] =>
    pose proof (sync_reported qsort x j Hq ops a p cal r dd la l Hnm Hr Hn Hd) as HS; 
    assert (Er : (r : R) = IZR w1 * 360 / 4294967296) by exact A1; assert (Ed : (dd : R) = d) by exact A2;
    pose proof (C30_roundtrip_equatorial r dd la l) as HR; set (rr := r : R) in *; set (dd0 := dd : R) in * end.
  destruct HS as (t' & q & ty & E1 & Eo & Ec & _ & E2 & Eq).
  match type of E with _ = bind ?b _ => replace b with (Ok t') in E by (symmetry; exact E1) end. cbn [bind] in E.
  exists (Tele (t_align t') (t_orient t') true), (written [35%Z] resp). split; [exact E|]. split; [reflexivity|].
  intros rest' extra'. rewrite C08_position_reply by lia.
  match goal with |- bind ?b _ = _ => replace b with (Ok (q, ty)) by (symmetry; exact E2) end. cbn [bind].
  cbv zeta in HR, Eq. rewrite <- Eq in HR. destruct HR as (_ & D1 & _ & D2).
  assert (Dd : DEC q = d) by (rewrite D1; [exact Ed|rewrite Ed; lra]).
  assert (Rr : 0 <= rr < 360). { rewrite Er. unfold word in W1. destruct W1 as [Wa Wb]. apply IZR_le in Wa. apply IZR_lt in Wb. simpl in Wa, Wb. lra. }
  assert (Dr : RA q = IZR w1 * 360 / 4294967296) by (rewrite D2; [exact Er|rewrite Ed; lra|exact Rr]).
  match goal with |- bind ?b _ = _ => change b with (word_of NumR oor (RA q)) end. rewrite (word_of_nat w1 _ W1 Dr). cbn [bind].
  match goal with |- bind ?b _ = _ => change b with (word_of NumR oor (DEC q)) end. rewrite Dd. reflexivity.
Qed.

(** Northern stars: a sync request followed by a position request (anything may be appended to either) gets
    the same two words back. *)
Theorem C13_sync_then_position_same_words : forall ops a p cal g w1 w2 f1 f2 sep rest extra resp max,
  never_more_than NumR 63 ops -> reaches NumR qsort x j ops a -> (numVertices a <= 1)%Z ->
  existsb (fun q => same NumR q p) (map actual (stored a)) = false ->
  word w1 -> (0 <= w2 < 1073741824)%Z -> spells w1 f1 -> spells w2 f2 -> (18 < max)%Z -> (max <= len resp)%Z ->
  let req := sync_request f1 sep f2 rest in
  exists t' resp', handle (Tele a p cal) g (req ++ extra) (len req) resp max = Ok (1%Z, resp', t') /\
    forall rest' extra', handle t' g (101%Z :: rest' ++ extra') (len (101%Z :: rest')) resp max =
     Ok (18%Z, written (position_reply w1 w2) resp, t').
Proof.
  intros ops a p cal g w1 w2 f1 f2 sep rest extra resp max Hnm Hr Hn Hd W1 W2 S1 S2 H1 H2 req.
  assert (W2' : word w2) by (unfold word; lia).
  destruct (sync_then_position ops a p cal g w1 w2 f1 f2 sep rest extra resp max Hnm Hr Hn Hd W1 W2' S1 S2 H1 H2) as (t' & resp' & E1 & _ & E2).
  - replace (3221225472 <? w2)%Z with false by (symmetry; apply Z.ltb_ge; lia).
    destruct W2 as [Wa Wb]. apply IZR_le in Wa. apply IZR_lt in Wb. simpl in Wa, Wb. lra.
  - exists t', resp'. split; [exact E1|]. intros. rewrite E2.
    replace (3221225472 <? w2)%Z with false by (symmetry; apply Z.ltb_ge; lia).
    rewrite (word_of_nat w2) by (auto; reflexivity). reflexivity.
Qed.

(** ** C77 *)
(** Southern stars: the declination is negative, and its conversion to uint32_t is outside the range. *)
Theorem C77_southern_position_partial : forall ops a p cal g w1 w2 f1 f2 sep rest extra resp max,
  never_more_than NumR 63 ops -> reaches NumR qsort x j ops a -> (numVertices a <= 1)%Z ->
  existsb (fun q => same NumR q p) (map actual (stored a)) = false ->
  word w1 -> (3221225472 < w2 < 4294967296)%Z -> spells w1 f1 -> spells w2 f2 -> (18 < max)%Z -> (max <= len resp)%Z ->
  let req := sync_request f1 sep f2 rest in
  exists t' resp', handle (Tele a p cal) g (req ++ extra) (len req) resp max = Ok (1%Z, resp', t') /\
    forall rest' extra', handle t' g (101%Z :: rest' ++ extra') (len (101%Z :: rest')) resp max =
     (do w <- oor (w2 - 4294967296)%Z; Ok (18%Z, written (position_reply w1 w) resp, t')).
Proof.
  intros ops a p cal g w1 w2 f1 f2 sep rest extra resp max Hnm Hr Hn Hd W1 W2 S1 S2 H1 H2 req.
  assert (W2' : word w2) by (unfold word; lia).
  destruct (sync_then_position ops a p cal g w1 w2 f1 f2 sep rest extra resp max Hnm Hr Hn Hd W1 W2' S1 S2 H1 H2) as (t' & resp' & E1 & _ & E2).
  - replace (3221225472 <? w2)%Z with true by (symmetry; apply Z.ltb_lt; lia).
    destruct W2 as [Wa Wb]. apply IZR_lt in Wa. apply IZR_lt in Wb. simpl in Wa, Wb. lra.
  - exists t', resp'. split; [exact E1|]. intros. rewrite E2.
    replace (3221225472 <? w2)%Z with true by (symmetry; apply Z.ltb_lt; lia).
    rewrite (word_of_neg (w2 - 4294967296)); [reflexivity|lia|]. rewrite minus_IZR. reflexivity.
Qed.
End EndToEnd.
Print Assumptions C13_sync_then_position_same_words.
(** By ISO C++ that is undefined; if the conversion happens to wrap, the synced word comes back. *)
Theorem C77_southern_position_refuted : forall w, (3221225472 < w < 4294967296)%Z ->
  strict_iso (w - 4294967296)%Z = UB BadConv /\ wrap_u32 (w - 4294967296)%Z = Ok w /\ saturate_u32 (w - 4294967296)%Z = Ok 0%Z.
Proof.
  intros w H. split; [reflexivity|]. split; unfold wrap_u32, saturate_u32; f_equal.
  - unfold u32. replace (w - 4294967296)%Z with (w + (-1) * 4294967296)%Z by ring. rewrite Z_mod_plus_full. apply Z.mod_small. lia.
  - replace (w - 4294967296 <? 0)%Z with true by (symmetry; apply Z.ltb_lt; lia). reflexivity.
Qed.

(** ** C15 *)
(** bytes [d], [m] give the coordinate [v] rounded down to the minute, with slack [e] minutes *)
Definition deg_min (e v : R) (d m : Z) : Prop :=
  (0 <= d)%Z /\ (0 <= m < 60)%Z /\ IZR d + (IZR m - e) / 60 <= v < IZR d + (IZR m + 1 + e) / 60.
Section Location.
Context (pf : platform) (oor : conv_policy).
Lemma location_reply N T qsort m9 junk t g rest extra resp max d1 m1 d2 m2 : (9 < max)%Z -> (max <= len resp)%Z ->
  degrees_byte N oor (g_latitude g) = Ok d1 -> minutes_byte N oor (g_latitude g) = Ok m1 ->
  degrees_byte N oor (g_longitude g) = Ok d2 -> minutes_byte N oor (g_longitude g) = Ok m2 ->
  handleRequest N T pf oor qsort m9 junk t g (119%Z :: rest ++ extra) (len (119%Z :: rest)) resp max =
  Ok (9%Z, written [u8 d1; u8 m1; 0; if g_north g then 0 else 1; u8 d2; u8 m2; 0; if g_east g then 0 else 1; 35]%Z resp, t).
Proof.
  intros H1 H2 E1 E2 E3 E4. change (119%Z :: rest ++ extra) with ((119%Z :: rest) ++ extra). rewrite handle_act, act_location. unfold perform.
  rewrite E1. cbn [bind]. rewrite E2. cbn [bind]. rewrite E3. cbn [bind]. rewrite E4. cbn [bind].
  unfold reply. rewrite snprintf_fits; [|cbn [length app pc]; lia|lia].
  destruct (g_north g), (g_east g); reflexivity.
Qed.
Theorem C15_location_exact : forall T qsort m9 junk t (g : gnss NumR) rest extra resp max,
  0 <= (g_latitude g : R) <= 90 -> 0 <= (g_longitude g : R) <= 180 -> (9 < max)%Z -> (max <= len resp)%Z ->
  exists d1 m1 d2 m2, deg_min 0 (g_latitude g) d1 m1 /\ deg_min 0 (g_longitude g) d2 m2 /\
  handleRequest NumR T pf oor qsort m9 junk t g (119%Z :: rest ++ extra) (len (119%Z :: rest)) resp max =
  Ok (9%Z, written [d1; m1; 0; if g_north g then 0 else 1; d2; m2; 0; if g_east g then 0 else 1; 35]%Z resp, t).
Proof.
  intros T qsort m9 junk t g rest extra resp max B1 B2 H1 H2.
  destruct (degrees_spec oor (g_latitude g) ltac:(lra)) as [E1 _]. destruct (degrees_spec oor (g_longitude g) ltac:(lra)) as [E3 _].
  destruct (minutes_R oor (g_latitude g) ltac:(lra)) as (m1 & E2 & M1 & M1'). destruct (minutes_R oor (g_longitude g) ltac:(lra)) as (m2 & E4 & M2 & M2').
  pose proof (floor_range (g_latitude g) 256 ltac:(simpl; lra)) as F1. pose proof (floor_range (g_longitude g) 256 ltac:(simpl; lra)) as F2.
  exists (Zfloor (g_latitude g)), m1, (Zfloor (g_longitude g)), m2.
  split; [split; [lia|split; [lia|lra]]|]. split; [split; [lia|split; [lia|lra]]|].
  rewrite (location_reply NumR T qsort m9 junk t g rest extra resp max _ _ _ _ H1 H2 E1 E2 E3 E4).
  unfold u8. rewrite !Z.mod_small by lia. reflexivity.
Qed.
(** float arithmetic: the same to 1/500000 of a minute *)
Theorem C15_location_float : forall T qsort m9 junk t (g : gnss NumB) rest extra resp max,
  is_b32 (g_latitude g) -> is_b32 (g_longitude g) ->
  0 <= (g_latitude g : R) <= 90 -> 0 <= (g_longitude g : R) <= 180 -> (9 < max)%Z -> (max <= len resp)%Z ->
  exists d1 m1 d2 m2, deg_min (/ 500000) (g_latitude g) d1 m1 /\ deg_min (/ 500000) (g_longitude g) d2 m2 /\
  handleRequest NumB T pf oor qsort m9 junk t g (119%Z :: rest ++ extra) (len (119%Z :: rest)) resp max =
  Ok (9%Z, written [d1; m1; 0; if g_north g then 0 else 1; d2; m2; 0; if g_east g then 0 else 1; 35]%Z resp, t).
Proof.
  intros T qsort m9 junk t g rest extra resp max I1 I2 B1 B2 H1 H2.
  destruct (degrees_spec oor (g_latitude g) ltac:(lra)) as [_ E1]. destruct (degrees_spec oor (g_longitude g) ltac:(lra)) as [_ E3].
  destruct (minutes_B oor (g_latitude g) I1 ltac:(lra)) as (m1 & E2 & M1 & M1'). destruct (minutes_B oor (g_longitude g) I2 ltac:(lra)) as (m2 & E4 & M2 & M2').
  pose proof (floor_range (g_latitude g) 256 ltac:(simpl; lra)) as F1. pose proof (floor_range (g_longitude g) 256 ltac:(simpl; lra)) as F2.
  exists (Zfloor (g_latitude g)), m1, (Zfloor (g_longitude g)), m2.
  split; [split; [lia|split; [lia|lra]]|]. split; [split; [lia|split; [lia|lra]]|].
  rewrite (location_reply NumB T qsort m9 junk t g rest extra resp max _ _ _ _ H1 H2 E1 E2 E3 E4).
  unfold u8. rewrite !Z.mod_small by lia. reflexivity.
Qed.
Example C15_nonvacuous : 0 <= 48.125 <= 90 /\ is_b32 48.125.
Proof. split; [lra|]. replace 48.125 with (IZR 385 * bpow radix2 (-3)) by (change (bpow radix2 (-3)) with (/ 8); lra). apply is_b32_dyadic; lia. Qed.

(** ** C79 *)
(** South of the equator (likewise west of Greenwich) the degrees byte is the next whole degree away from zero
    and the minutes are negative before the conversion to uint8_t: undefined in ISO C++, and wrong whatever
    the platform makes of it. *)
Theorem C79_southern_location_refuted : forall T qsort m9 junk t (g : gnss NumR) rest extra resp max,
  -90 <= (g_latitude g : R) < 0 -> IZR (Zfloor (g_latitude g)) + 1 / 60 <= (g_latitude g : R) -> (9 < max)%Z -> (max <= len resp)%Z ->
  (oor = strict_iso -> handleRequest NumR T pf oor qsort m9 junk t g (119%Z :: rest ++ extra) (len (119%Z :: rest)) resp max = UB BadConv) /\
  (forall n resp' t', handleRequest NumR T pf oor qsort m9 junk t g (119%Z :: rest ++ extra) (len (119%Z :: rest)) resp max = Ok (n, resp', t') ->
     Rabs (g_latitude g) + 1 / 60 <= IZR (nth 0 resp' 0%Z)).
Proof.
  intros T qsort m9 junk t g rest extra resp max B Hf H1 H2.
  set (v := (g_latitude g : R)) in *. pose proof (Zfloor_lb v) as L. pose proof (Zfloor_ub v) as U.
  assert (Fl : (-90 <= Zfloor v < 0)%Z) by (split; [apply Zfloor_lub; simpl; lra|apply lt_IZR; lra]).
  assert (Ed : degrees_byte NumR oor (g_latitude g) = Ok (- Zfloor v)%Z).
  { unfold degrees_byte, to_u8. cbn [ftrunc fabs ffloor NumR]. fold v. rewrite Rabs_left by (apply (IZR_lt _ 0); lia).
    rewrite <- opp_IZR, Ztrunc_IZR. replace ((0 <=? _)%Z && (_ <? 256)%Z) with true; [reflexivity|].
    symmetry. apply andb_true_iff; split; [apply Z.leb_le|apply Z.ltb_lt]; lia. }
  assert (Em : minutes_byte NumR oor (g_latitude g) = oor (Ztrunc ((IZR (Zfloor v) - v) * 60))).
  { unfold minutes_byte, to_u8. cbn [ftrunc fabs f32 fmul fsub fZ ffloor NumR]. fold v. rewrite (Rabs_left v) by lra.
    rewrite Rabs_left by (apply (IZR_lt _ 0); lia). replace (- v - - IZR (Zfloor v)) with (IZR (Zfloor v) - v) by ring.
    assert (Hc : (Ztrunc ((IZR (Zfloor v) - v) * 60) <= -1)%Z).
    { rewrite Ztrunc_ceil by lra. apply Zceil_glb. simpl. lra. }
    replace (0 <=? _)%Z with false by (symmetry; apply Z.leb_gt; lia). reflexivity. }
  change (119%Z :: rest ++ extra) with ((119%Z :: rest) ++ extra). rewrite handle_act, act_location. unfold perform.
  rewrite Ed. cbn [bind]. rewrite Em. split.
  - intros ->. reflexivity.
  - intros n resp' t' E. destruct (oor _) as [m1|]; [|discriminate]. cbn [bind] in E.
    destruct (degrees_byte NumR oor (g_longitude g)) as [d2|]; [|discriminate]. cbn [bind] in E. destruct (minutes_byte NumR oor (g_longitude g)) as [m2|]; [|discriminate]. cbn [bind] in E.
    unfold reply in E. rewrite snprintf_fits in E; [|cbn [length app pc]; lia|lia]. cbn [bind] in E. injection E as _ <- _.
    cbn [written app pc nth]. unfold u8. rewrite Z.mod_small by lia. rewrite opp_IZR. rewrite Rabs_left by lra. lra.
Qed.
Theorem C79_western_location_refuted : forall T qsort m9 junk t (g : gnss NumR) rest extra resp max,
  0 <= (g_latitude g : R) <= 90 -> -180 <= (g_longitude g : R) < 0 -> IZR (Zfloor (g_longitude g)) + 1 / 60 <= (g_longitude g : R) -> (9 < max)%Z -> (max <= len resp)%Z ->
  (oor = strict_iso -> handleRequest NumR T pf oor qsort m9 junk t g (119%Z :: rest ++ extra) (len (119%Z :: rest)) resp max = UB BadConv) /\
  (forall n resp' t', handleRequest NumR T pf oor qsort m9 junk t g (119%Z :: rest ++ extra) (len (119%Z :: rest)) resp max = Ok (n, resp', t') ->
     Rabs (g_longitude g) + 1 / 60 <= IZR (nth 4 resp' 0%Z)).
Proof.
  intros T qsort m9 junk t g rest extra resp max B0 B Hf H1 H2.
  destruct (degrees_spec oor (g_latitude g) ltac:(lra)) as [E1 _].
  destruct (minutes_R oor (g_latitude g) ltac:(lra)) as (m1 & E2 & M1 & M1').
  set (v := (g_longitude g : R)) in *. pose proof (Zfloor_lb v) as L. pose proof (Zfloor_ub v) as U.
  assert (Fl : (-180 <= Zfloor v < 0)%Z) by (split; [apply Zfloor_lub; simpl; lra|apply lt_IZR; lra]).
  assert (Ed : degrees_byte NumR oor (g_longitude g) = Ok (- Zfloor v)%Z).
  { unfold degrees_byte, to_u8. cbn [ftrunc fabs ffloor NumR]. fold v. rewrite Rabs_left by (apply (IZR_lt _ 0); lia).
    rewrite <- opp_IZR, Ztrunc_IZR. replace ((0 <=? _)%Z && (_ <? 256)%Z) with true; [reflexivity|].
    symmetry. apply andb_true_iff; split; [apply Z.leb_le|apply Z.ltb_lt]; lia. }
  assert (Em : minutes_byte NumR oor (g_longitude g) = oor (Ztrunc ((IZR (Zfloor v) - v) * 60))).
  { unfold minutes_byte, to_u8. cbn [ftrunc fabs f32 fmul fsub fZ ffloor NumR]. fold v. rewrite (Rabs_left v) by lra.
    rewrite Rabs_left by (apply (IZR_lt _ 0); lia). replace (- v - - IZR (Zfloor v)) with (IZR (Zfloor v) - v) by ring.
    assert (Hc : (Ztrunc ((IZR (Zfloor v) - v) * 60) <= -1)%Z).
    { rewrite Ztrunc_ceil by lra. apply Zceil_glb. simpl. lra. }
    replace (0 <=? _)%Z with false by (symmetry; apply Z.leb_gt; lia). reflexivity. }
  change (119%Z :: rest ++ extra) with ((119%Z :: rest) ++ extra). rewrite handle_act, act_location. unfold perform.
  rewrite E1. cbn [bind]. rewrite E2. cbn [bind]. rewrite Ed. cbn [bind]. rewrite Em. split.
  - intros ->. reflexivity.
  - intros n resp' t' E. destruct (oor _) as [m2|]; [|discriminate]. cbn [bind] in E.
    unfold reply in E. rewrite snprintf_fits in E; [|cbn [length app pc]; lia|lia]. cbn [bind] in E. injection E as _ <- _.
    cbn [written app pc nth]. unfold u8. rewrite Z.mod_small by lia. rewrite opp_IZR. rewrite Rabs_left by lra. lra.
Qed.
Example C79_nonvacuous : -90 <= -33.5 < 0 /\ IZR (Zfloor (-33.5)) + 1 / 60 <= -33.5.
Proof. split; [lra|]. rewrite (Zfloor_imp (-34)) by (simpl; lra). simpl. lra. Qed.
End Location.
Print Assumptions C79_southern_location_refuted.
