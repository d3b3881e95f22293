(** C151-C153: what becomes of malformed or overlong numbers in requests and sentences. *)
From Verif Require Import Base Num M_Libc M_Linalg M_Helper M_Alignment M_Telescope M_Gnss M_NexStar S_NexStar S_Gnss P_Libc P_NexStar P_Gnss P_Gnss2 P_Round P_Stellarium P_Main P_AlignState P_Device S_Alignment.
From Coq Require Import Reals Lra String.
Import ListNotations. Notation length := List.length.
Local Open Scope Z_scope.
Notation len l := (Z.of_nat (length l)).

(** ** C151: whatever the two fields of a sync request contain *)
(** a field: the eight bytes at its place *)
Definition first_field (req : list Z) : list Z := firstn 8 (skipn 1 req).
Definition second_field (req : list Z) : list Z := firstn 8 (skipn 10 req).

Lemma rd_skipn (l : list Z) i x r : skipn i l = x :: r -> rd l i = Ok x /\ skipn (S i) l = r.
Proof.
  revert l. induction i as [|i IH]; intros l E.
  - cbn in E. subst l. split; reflexivity.
  - destruct l as [|y l]; [discriminate|]. cbn [skipn] in E. destruct (IH l E) as [A B]. split; [exact A|exact B].
Qed.
Lemma read_upto_is n : forall req i, (n <= length (skipn i req))%nat ->
  read_upto req i n = Ok (until_nul (firstn n (skipn i req))).
Proof.
  induction n as [|n IH]; intros req i H; [reflexivity|].
  destruct (skipn i req) as [|x r] eqn:E; [cbn in H; lia|].
  destruct (rd_skipn _ _ _ _ E) as [E1 E2]. cbn [read_upto firstn until_nul]. rewrite E1. cbn [bind].
  destruct (x =? 0); [reflexivity|]. rewrite IH by (rewrite E2; cbn in H; lia). rewrite E2. reflexivity.
Qed.
Lemma fields_are pf req : is_sync req ->
  field pf req 1 = Ok (fst (strtoul pf 16 (until_nul (first_field req)))) /\
  field pf req 10 = Ok (fst (strtoul pf 16 (until_nul (second_field req)))).
Proof.
  intros (r & -> & H). unfold field. rewrite !read_upto_is by (rewrite skipn_length; cbn [length]; lia). split; reflexivity.
Qed.
Lemma take_digits_nonneg b l : 0 <= b -> forall acc, 0 <= acc -> 0 <= fst (take_digits b acc l).
Proof.
  intros Hb. induction l as [|x l IH]; intros acc H; cbn [take_digits fst]; [exact H|].
  destruct (digit_in b x) as [d|] eqn:E; [|exact H].
  assert (0 <= d). { unfold digit_in, digit_of in E. repeat match type of E with context [if ?c then _ else _] => destruct c eqn:? end; try discriminate; inversion E; subst;
    repeat match goal with H : _ && _ = true |- _ => apply andb_prop in H; destruct H end; lia. }
  specialize (IH (acc * b + d) ltac:(nia)). destruct (take_digits b (acc * b + d) l). exact IH.
Qed.
Lemma strtoul_range pf l : 0 <= fst (strtoul pf 16 l) < ulong_mod pf.
Proof.
  assert (M : 0 < ulong_mod pf) by (unfold ulong_mod; destruct (w64 pf); lia).
  unfold strtoul, strto_int. destruct (take_ws l) as [n0 l0]. destruct (take_sign l0) as [[neg n1] l1]. destruct (take_0x 16 l1) as [n2 l2].
  pose proof (take_digits_nonneg 16 l2 ltac:(lia) 0 ltac:(lia)) as H. destruct (take_digits 16 0 l2) as [v n3]. cbn [fst] in H.
  destruct n3 as [|n3]; cbn [fst].
  - destruct (Z.leb_spec (ulong_mod pf) 0); lia.
  - destruct (Z.leb_spec (ulong_mod pf) v); [lia|]. destruct neg; [apply Z.mod_pos_bound; lia|lia].
Qed.

Section Any.
Context (N : Num) (T : Trig N) (pf : platform) (oor : conv_policy).
Context (qsort : list (vpair N) -> list (vpair N)) (m9 : res (F N)) (junk : option (F N * F N)).
Notation handle := (handleRequest N T pf oor qsort m9 junk).
(** the angle of a 32-bit word, and what the device takes it for as a declination *)
Definition turn (w : Z) : F N := fdiv N (fmul N (fZ N w) (fZ N 360)) (fZ N 4294967296).
Definition as_dec (v : F N) : F N := if flt N (fZ N 270) v then fsub N v (fZ N 360) else v.
(** the answer to a sync at right ascension [ra] and declination [dec] *)
Definition synced_at (t : telescope N) (g : gnss N) (resp : list Z) (ra dec : F N) :=
  do t' <- addReferencePoint N T qsort m9 junk t ra dec (g_latitude g) (getLocalSiderealTimeDegrees N (g_time g) (g_longitude g));
  Ok (1, written [35] resp, Tele (t_align t') (t_orient t') true).

Lemma sync_any t g req extra resp max : is_sync req -> 1 < max -> max <= len resp ->
  handle t g (req ++ extra) (len req) resp max =
    synced_at t g resp (turn (fst (strtoul pf 16 (until_nul (first_field req)))))
                       (as_dec (turn (fst (strtoul pf 16 (until_nul (second_field req)))))).
Proof.
  intros Hs H1 H2. rewrite handle_act, (proj2 (act_sync N t g req) Hs). cbn [perform]. rewrite do_sync_app by exact Hs.
  destruct (fields_are pf req Hs) as [E1 E2]. unfold do_sync. rewrite E1. cbn [bind]. rewrite E2. cbn [bind].
  unfold lst_of, synced_at, turn, as_dec, angle_of. destruct (addReferencePoint _ _ _ _ _ _ _ _ _ _) as [t'|]; [|reflexivity]. cbn [bind].
  unfold reply. rewrite snprintf_fits; [reflexivity|cbn [length]; lia|lia].
Qed.

(** a sync request never means anything but a sync at the angles of two 32-bit words *)
Theorem C151_any_fields : w64 pf = false -> forall t g req extra resp max, is_sync req -> 1 < max -> max <= len resp ->
  exists w1 w2, word w1 /\ word w2 /\
    handle t g (req ++ extra) (len req) resp max = synced_at t g resp (turn w1) (as_dec (turn w2)).
Proof.
  intros H32 t g req extra resp max Hs H1 H2.
  exists (fst (strtoul pf 16 (until_nul (first_field req)))), (fst (strtoul pf 16 (until_nul (second_field req)))).
  pose proof (strtoul_range pf (until_nul (first_field req))) as A. pose proof (strtoul_range pf (until_nul (second_field req))) as B.
  unfold ulong_mod in A, B. rewrite H32 in A, B. split; [exact A|]. split; [exact B|]. apply sync_any; auto.
Qed.

(** The words, for fields that are not eight digits: [value] of the leading digits *)
Definition hex_digit_of (c : Z) (d : Z) : Prop := hex_char d c /\ 0 <= d < 16.
Definition no_hex (c : Z) : Prop := forall d, ~ hex_digit_of c d.
Inductive denotes : list Z -> Z -> Prop :=
| D_nil : denotes [] 0
| D_snoc ds c d v : denotes ds v -> hex_digit_of c d -> denotes (ds ++ [c]) (16 * v + d).
(** what may stand behind the digits: nothing, or a byte that is neither a hex digit nor 'x', 'X' *)
Definition ends (l : list Z) : Prop := match l with [] => True | c :: _ => no_hex c /\ c <> 120 /\ c <> 88 end.
End Any.

Lemma hex_digit_of_in c d : hex_digit_of c d <-> digit_in 16 c = Some d.
Proof.
  split.
  - intros [[[A E]|[[A E]|[A E]]] R]; subst c; unfold digit_in, digit_of.
    + replace (48 <=? 48 + d) with true by (symmetry; apply Z.leb_le; lia). replace (48 + d <=? 57) with true by (symmetry; apply Z.leb_le; lia). cbn [andb].
      replace (48 + d - 48) with d by lia. replace (d <? 16) with true by (symmetry; apply Z.ltb_lt; lia). reflexivity.
    + replace (65 + (d - 10) <=? 57) with false by (symmetry; apply Z.leb_gt; lia). rewrite andb_false_r.
      replace (65 <=? 65 + (d - 10)) with true by (symmetry; apply Z.leb_le; lia). replace (65 + (d - 10) <=? 90) with true by (symmetry; apply Z.leb_le; lia). cbn [andb].
      replace (65 + (d - 10) - 55) with d by lia. replace (d <? 16) with true by (symmetry; apply Z.ltb_lt; lia). reflexivity.
    + replace (97 + (d - 10) <=? 57) with false by (symmetry; apply Z.leb_gt; lia). rewrite andb_false_r.
      replace (97 + (d - 10) <=? 90) with false by (symmetry; apply Z.leb_gt; lia). rewrite andb_false_r.
      replace (97 <=? 97 + (d - 10)) with true by (symmetry; apply Z.leb_le; lia). replace (97 + (d - 10) <=? 122) with true by (symmetry; apply Z.leb_le; lia). cbn [andb].
      replace (97 + (d - 10) - 87) with d by lia. replace (d <? 16) with true by (symmetry; apply Z.ltb_lt; lia). reflexivity.
  - intros H. pose proof (digit_in_16 _ _ H) as (_ & _ & _ & _ & _ & R). split; [|exact R].
    unfold digit_in, digit_of in H. unfold hex_char.
    destruct (Z.leb_spec 48 c), (Z.leb_spec c 57); cbn [andb] in H;
      destruct (Z.leb_spec 65 c), (Z.leb_spec c 90); cbn [andb] in H;
      destruct (Z.leb_spec 97 c), (Z.leb_spec c 122); cbn [andb] in H; try discriminate; try lia;
      match type of H with context [?a <? 16] => destruct (Z.ltb_spec a 16); inversion H; subst end; lia.
Qed.
Lemma no_hex_in c : no_hex c -> digit_in 16 c = None.
Proof. intros H. destruct (digit_in 16 c) as [d|] eqn:E; [|reflexivity]. exfalso. apply (H d). apply hex_digit_of_in. exact E. Qed.
Lemma denotes_hex ds v : denotes ds v -> hexdigits ds /\ hexval ds = v /\ 0 <= v < 16 ^ len ds /\ (forall x, In x ds -> x <> 0).
Proof.
  induction 1 as [|ds c d v H (A & B & C & D) Hc].
  - split; [reflexivity|]. split; [reflexivity|]. split; [cbn; lia|]. intros x []. 
  - assert (E := proj1 (hex_digit_of_in c d) Hc). destruct Hc as [_ R]. unfold hexdigits, hexval in *. rewrite forallb_app, fold_left_app, A, B. cbn [forallb fold_left]. rewrite E.
    split; [reflexivity|]. split; [lia|]. split.
    + rewrite app_length. cbn [length]. rewrite Nat2Z.inj_add, Z.pow_add_r by lia. change (16 ^ Z.of_nat 1) with 16. nia.
    + intros x Hx. apply in_app_or in Hx. destruct Hx as [Hx|[<-|[]]]; [auto|]. pose proof (digit_in_16 _ _ E). tauto.
Qed.
Lemma until_nul_digits ds tail : (forall x, In x ds -> x <> 0) -> until_nul (ds ++ tail) = ds ++ until_nul tail.
Proof.
  induction ds as [|x ds IH]; intros H; [reflexivity|]. cbn [app until_nul]. destruct (Z.eqb_spec x 0) as [E|_]; [exfalso; apply (H x); [left; auto|exact E]|].
  rewrite IH by (intros; apply H; right; auto). reflexivity.
Qed.
Lemma ends_nul tail : ends tail -> ends (until_nul tail).
Proof. destruct tail as [|x t]; [auto|]. cbn [until_nul]. destruct (x =? 0); cbn [ends]; auto. Qed.
Lemma hex_bound ds v : denotes ds v -> (length ds <= 8)%nat -> v < 4294967296.
Proof.
  intros H L. apply denotes_hex in H. destruct H as (_ & _ & B & _).
  assert (16 ^ len ds <= 16 ^ 8) by (apply Z.pow_le_mono_r; lia). change (16 ^ 8) with 4294967296 in *. lia.
Qed.
Lemma mod_above pf : 4294967296 <= ulong_mod pf. Proof. unfold ulong_mod. destruct (w64 pf); lia. Qed.
Lemma hex_ends tail : ends tail -> match until_nul tail with [] => True | x :: _ => digit_in 16 x = None end /\ match until_nul tail with [] => True | x :: _ => x <> 120 /\ x <> 88 end.
Proof. intros H. apply ends_nul in H. destruct (until_nul tail); [auto|]. destruct H as (A & B). split; [apply no_hex_in; exact A|exact B]. Qed.
(** leading digits *)
Lemma plain_value pf ds v tail : denotes ds v -> (length ds <= 8)%nat -> ds <> [] -> ends tail ->
  fst (strtoul pf 16 (until_nul (ds ++ tail))) = v.
Proof.
  intros H L Hn He. pose proof (hex_bound ds v H L) as B. destruct (denotes_hex ds v H) as (A1 & A2 & A3 & A4).
  rewrite until_nul_digits by exact A4. destruct (hex_ends tail He) as [E1 E2]. unfold strtoul. rewrite strto_int_hex; auto.
  cbn [fst]. pose proof (mod_above pf). rewrite A2. destruct (Z.leb_spec (ulong_mod pf) v); [lia|reflexivity].
Qed.
(** 0x and digits *)
Lemma prefixed_value pf x ds v tail : denotes ds v -> (length ds <= 6)%nat -> ds <> [] -> ends tail -> x = 120 \/ x = 88 ->
  fst (strtoul pf 16 (until_nul (48 :: x :: ds ++ tail))) = v.
Proof.
  intros H L Hn He Hx. pose proof (hex_bound ds v H ltac:(lia)) as B. destruct (denotes_hex ds v H) as (A1 & A2 & A3 & A4).
  assert (U : until_nul (48 :: x :: ds ++ tail) = 48 :: x :: ds ++ until_nul tail).
  { cbn [until_nul]. change (48 =? 0) with false. destruct Hx; subst x; cbn [Z.eqb]; rewrite until_nul_digits by exact A4; reflexivity. }
  rewrite U. destruct (hex_ends tail He) as [E1 E2]. destruct ds as [|c ds]; [congruence|].
  pose proof A1 as A1'. unfold hexdigits in A1'. cbn [forallb] in A1'. apply andb_prop in A1'. destruct A1' as [Ac _].
  unfold strtoul, strto_int. cbn [take_ws]. change (is_space 48) with false. cbn iota. cbn [take_sign].
  assert (TX : take_0x 16 (48 :: x :: (c :: ds) ++ until_nul tail) = (2%nat, (c :: ds) ++ until_nul tail)).
  { unfold take_0x. cbn [app]. destruct Hx; subst x; cbn [Z.eqb andb orb Pos.eqb]; rewrite Ac; reflexivity. }
  rewrite TX.
  assert (TD : take_digits 16 0 ((c :: ds) ++ until_nul tail) = (hexval (c :: ds), length (c :: ds))).
  { destruct (until_nul tail) as [|y tl]; [rewrite app_nil_r; apply take_digits_end; exact A1|apply take_digits_run; auto]. }
  rewrite TD. cbn [length fst]. pose proof (mod_above pf). rewrite A2. destruct (Z.leb_spec (ulong_mod pf) v); [lia|reflexivity].
Qed.
(** a minus sign *)
Lemma minus_value pf ds v tail : denotes ds v -> (length ds <= 7)%nat -> ds <> [] -> ends tail ->
  fst (strtoul pf 16 (until_nul (45 :: ds ++ tail))) = (- v) mod ulong_mod pf.
Proof.
  intros H L Hn He. pose proof (hex_bound ds v H ltac:(lia)) as B. destruct (denotes_hex ds v H) as (A1 & A2 & A3 & A4).
  assert (U : until_nul (45 :: ds ++ tail) = 45 :: ds ++ until_nul tail).
  { cbn [until_nul]. change (45 =? 0) with false. cbn iota. rewrite until_nul_digits by exact A4; reflexivity. }
  rewrite U. destruct (hex_ends tail He) as [E1 E2]. destruct ds as [|c ds]; [congruence|].
  unfold strtoul, strto_int. cbn [take_ws]. change (is_space 45) with false. cbn iota. cbn [take_sign].
  assert (TX : take_0x 16 ((c :: ds) ++ until_nul tail) = (O, (c :: ds) ++ until_nul tail)).
  { cbn [app]. apply take_0x_hex. destruct ds as [|y ds]; cbn [app].
    - destruct (until_nul tail); [exact I|exact E2].
    - unfold hexdigits in A1. cbn [forallb] in A1. apply andb_prop in A1. destruct A1 as [_ A1]. apply andb_prop in A1. destruct A1 as [A1 _].
      destruct (digit_in 16 y) eqn:Ey; [|discriminate]. apply digit_in_16 in Ey. tauto. }
  rewrite TX.
  assert (TD : take_digits 16 0 ((c :: ds) ++ until_nul tail) = (hexval (c :: ds), length (c :: ds))).
  { destruct (until_nul tail) as [|y tl]; [rewrite app_nil_r; apply take_digits_end; exact A1|apply take_digits_run; auto]. }
  rewrite TD. cbn [length fst]. pose proof (mod_above pf). rewrite A2. destruct (Z.leb_spec (ulong_mod pf) v); [lia|reflexivity].
Qed.
(** no number at all *)
Definition no_start (l : list Z) : Prop :=
  match l with [] => True | c :: _ => no_hex c /\ c <> 32 /\ ~ (9 <= c <= 13) /\ c <> 43 /\ c <> 45 end.
Lemma nothing_value pf l : no_start l -> fst (strtoul pf 16 (until_nul l)) = 0.
Proof.
  intros H. assert (M := mod_above pf). destruct l as [|c l].
  { unfold strtoul. cbn. destruct (Z.leb_spec (ulong_mod pf) 0); [lia|reflexivity]. }
  destruct H as (H1 & H2 & H3 & H4 & H5). cbn [until_nul]. destruct (Z.eqb_spec c 0) as [->|H0].
  { unfold strtoul. cbn. destruct (Z.leb_spec (ulong_mod pf) 0); [lia|reflexivity]. }
  unfold strtoul, strto_int. cbn [take_ws]. assert (Sp : is_space c = false).
  { unfold is_space. destruct (Z.eqb_spec c 32), (Z.leb_spec 9 c), (Z.leb_spec c 13); cbn; try reflexivity; lia. }
  rewrite Sp.
  assert (TS : take_sign (c :: until_nul l) = (false, O, c :: until_nul l)).
  { unfold take_sign. destruct c as [|p|p]; try reflexivity. do 6 (destruct p as [p|p|]; try reflexivity; try lia). }
  rewrite TS.
  assert (TX : take_0x 16 (c :: until_nul l) = (O, c :: until_nul l)).
  { assert (c <> 48). { intros ->. apply (H1 0). split; [left; lia|lia]. }
    unfold take_0x. destruct c as [|p|p]; try reflexivity. do 6 (destruct p as [p|p|]; try reflexivity; try lia). }
  rewrite TX. cbn [take_digits]. rewrite (no_hex_in _ H1). cbn [fst]. destruct (Z.leb_spec (ulong_mod pf) 0); [lia|reflexivity].
Qed.

(** The word that a field means on the device (32-bit): the leading hex digits; after "0x" the digits behind it;
    after '-' the complement; 0 where no number starts. *)
Inductive means : list Z -> Z -> Prop :=
| M_digits ds v tail : denotes ds v -> ds <> [] -> ends tail -> means (ds ++ tail) v
| M_prefixed x ds v tail : x = 120 \/ x = 88 -> denotes ds v -> ds <> [] -> ends tail -> means (48 :: x :: ds ++ tail) v
| M_minus ds v tail : denotes ds v -> ds <> [] -> ends tail -> 0 < v -> means (45 :: ds ++ tail) (4294967296 - v)
| M_nothing l : no_start l -> means l 0.
Lemma means_value pf l w : w64 pf = false -> means l w -> (length l <= 8)%nat -> fst (strtoul pf 16 (until_nul l)) = w.
Proof.
  intros H32 H. destruct H as [ds v tail H Hn He|x ds v tail Hx H Hn He|ds v tail H Hn He Hv|l H]; intros L;
    cbn [length] in L; rewrite ?app_length in L; cbn [length] in L.
  - apply plain_value; auto; lia.
  - apply prefixed_value; auto; lia.
  - rewrite (minus_value pf ds v tail); auto; [|lia]. pose proof (hex_bound ds v H ltac:(lia)). unfold ulong_mod. rewrite H32.
    change (2 ^ 32) with 4294967296. rewrite <- (Z.mod_add (- v) 1) by lia. rewrite Z.mod_small; lia.
  - apply nothing_value. exact H.
Qed.
Theorem C151_field_values : forall (N : Num) (T : Trig N) pf oor qsort m9 junk, w64 pf = false ->
  forall t g req extra resp max w1 w2, is_sync req -> 1 < max -> max <= len resp ->
  means (first_field req) w1 -> means (second_field req) w2 ->
  handleRequest N T pf oor qsort m9 junk t g (req ++ extra) (len req) resp max =
    synced_at N T qsort m9 junk t g resp (turn N w1) (as_dec N (turn N w2)).
Proof.
  intros N T pf oor qsort m9 junk H32 t g req extra resp max w1 w2 Hs H1 H2 M1 M2. rewrite sync_any by auto.
  rewrite (means_value pf _ _ H32 M1), (means_value pf _ _ H32 M2); [reflexivity| |];
    unfold first_field, second_field; rewrite firstn_length; lia.
Qed.
(** Every right ascension is in [0, 360), every declination in [-90, 270]: exact and IEEE arithmetic. *)
Theorem C151_angles_exact : forall w, word w ->
  (0 <= turn NumR w < 360)%R /\ (-90 <= as_dec NumR (turn NumR w) <= 270)%R.
Proof.
  intros w [H1 H2]. assert (A : (0 <= turn NumR w < 360)%R).
  { unfold turn. cbn [fdiv fmul fZ NumR]. apply IZR_le in H1. apply IZR_lt in H2. lra. }
  split; [exact A|]. unfold as_dec. cbn [flt fZ fsub NumR]. change (F NumR) with R in *. generalize dependent (turn NumR w). intros v A. cbn in v.
  destruct (Flocq.Core.Raux.Rlt_bool_spec 270 v); lra.
Qed.
Lemma turn_B w : word w -> turn NumB w = (IZR w * 360 / 4294967296)%R.
Proof.
  intros [H1 H2]. unfold turn. cbn [fdiv fmul fZ NumB]. rewrite (b64_int w), (b64_int 360), (b64_int 4294967296) by lia.
  rewrite <- mult_IZR, (b64_int (w * 360)) by lia.
  replace (IZR (w * 360) / 4294967296)%R with (IZR (w * 360) * Flocq.Core.Raux.bpow Flocq.Core.Zaux.radix2 (-32))%R by (simpl; lra).
  apply b64_exact_scaled; lia.
Qed.
Theorem C151_angles_ieee : forall w, word w ->
  turn NumB w = (IZR w * 360 / 4294967296)%R /\ (0 <= turn NumB w < 360)%R /\ (-90 <= as_dec NumB (turn NumB w) <= 270)%R.
Proof.
  intros w Hw. split; [apply turn_B; exact Hw|]. rewrite (turn_B w Hw). destruct Hw as [H1 H2].
  assert (A : (0 <= IZR w * 360 / 4294967296 < 360)%R) by (apply IZR_le in H1; apply IZR_lt in H2; lra).
  split; [exact A|]. unfold as_dec. cbn [flt fZ fsub NumB]. rewrite (b64_int 270), (b64_int 360) by lia.
  generalize dependent (IZR w * 360 / 4294967296)%R. intros v A.
  destruct (Flocq.Core.Raux.Rlt_bool_spec 270 v); [|lra]. split.
  - replace (-90)%R with (b64 (-90)%R) by (apply (b64_int (-90)); lia). apply b64_le. lra.
  - replace 270%R with (b64 270%R) by (apply (b64_int 270); lia). apply b64_le. lra.
Qed.

(** ** C152: malformed sync requests are not refused *)
(** "szzzzzzzz,zzzzzzzz" is acknowledged and synchronises the telescope to (0, 0), on every platform *)
Theorem C152_malformed_accepted_refuted : forall (N : Num) (T : Trig N) pf oor qsort m9 junk t g req extra resp max,
  is_sync req -> no_start (first_field req) -> no_start (second_field req) -> 1 < max -> max <= len resp ->
  handleRequest N T pf oor qsort m9 junk t g (req ++ extra) (len req) resp max =
    synced_at N T qsort m9 junk t g resp (turn N 0) (as_dec N (turn N 0)).
Proof.
  intros N T pf oor qsort m9 junk t g req extra resp max Hs N1 N2 H1 H2. rewrite sync_any by auto.
  rewrite !nothing_value by auto. reflexivity.
Qed.
(** on a 64-bit platform a minus sign gives an angle beyond any circle *)
Theorem C152_minus_on_pc_refuted : forall (N : Num) (T : Trig N) pf oor qsort m9 junk t g req extra resp max ds v tail w2,
  w64 pf = true -> is_sync req -> first_field req = 45 :: ds ++ tail -> denotes ds v -> ds <> [] -> ends tail -> 0 < v ->
  second_field req = hex_upper w2 -> word w2 -> 1 < max -> max <= len resp ->
  handleRequest N T pf oor qsort m9 junk t g (req ++ extra) (len req) resp max =
    synced_at N T qsort m9 junk t g resp (turn N (18446744073709551616 - v)) (as_dec N (turn N w2)) /\
  (turn NumR (18446744073709551616 - v) > 1000000000000)%R.
Proof.
  intros N T pf oor qsort m9 junk t g req extra resp max ds v tail w2 H64 Hs E1 D Hn He Hv E2 W2 H1 H2.
  assert (L : (length ds <= 7)%nat).
  { assert (L : (length (first_field req) <= 8)%nat) by (unfold first_field; rewrite firstn_length; lia).
    rewrite E1 in L. cbn [length] in L. rewrite app_length in L. lia. }
  pose proof (hex_bound ds v D ltac:(lia)) as B. split.
  - rewrite sync_any by auto. rewrite E1, (minus_value pf ds v tail) by auto. rewrite E2.
    unfold ulong_mod. rewrite H64. change (2 ^ 64) with 18446744073709551616. rewrite <- (Z.mod_add (- v) 1) by lia.
    rewrite Z.mod_small by lia. replace (- v + 1 * 18446744073709551616) with (18446744073709551616 - v) by lia.
    pose proof (spells_field pf (hex_upper w2) w2 (hex_upper w2) [] [] W2) as S.
    rewrite app_nil_r in S. cbn [app length] in S. specialize (S (hex_upper_spells w2) eq_refl).
    unfold field in S. rewrite read_upto_is in S by reflexivity. cbn [bind] in S. apply Ok1 in S.
    change (firstn 8 (skipn 0 (hex_upper w2))) with (hex_upper w2) in S. rewrite S. reflexivity.
  - unfold turn. cbn [fdiv fmul fZ NumR]. rewrite minus_IZR. apply IZR_lt in B. lra.
Qed.

(** ** C153: numbers with too many digits *)
(** a satellite count of any number of digits: the device saturates at 2^31-1, a 64-bit platform
    keeps the low 32 bits (and gives 2^32-1 beyond 2^63) *)
Definition count_read (pf : platform) (n : Z) : Z :=
  if w64 pf then (if n <? 9223372036854775808 then n mod 4294967296 else 4294967295) else Z.min n 2147483647.
Lemma count_strtol pf n : 0 <= n -> u32 (Z.min n (long_max pf)) = count_read pf n.
Proof.
  intros H. unfold count_read, long_max, u32. destruct (w64 pf).
  - change (2 ^ 63 - 1) with 9223372036854775807. change (2 ^ 32) with 4294967296. destruct (Z.ltb_spec n 9223372036854775808).
    + rewrite Z.min_l by lia. reflexivity.
    + rewrite Z.min_r by lia. reflexivity.
  - change (2 ^ 31 - 1) with 2147483647. apply Z.mod_small. lia.
Qed.
Lemma int_step_any pf s p ds x rest : digits ds -> sep x -> at_ s p (ds ++ x :: rest) ->
  strtol_at pf s p = Ok (Z.min (digits_value ds) (long_max pf), (p + length ds)%nat).
Proof.
  intros [D1 D2] X A. unfold strtol_at. rewrite (at_cstr _ _ _ A).
  rewrite until_nul_app; [|eapply digits_no_nul; eauto|destruct X; subst; discriminate].
  cbn [bind]. unfold strtol. rewrite strto_int_digits; auto. destruct X; subst; reflexivity.
Qed.
Definition gsv_long (r : gsv) : Prop := digits (v_msgs r) /\ digits (v_num r) /\ digits (v_view r) /\ ~ In 42 (v_rest r).
Theorem C153_gsv_any_count : forall (N : Num) pf oor (lc : libc N) g r cs more,
  gsv_long r -> char_plain pf (gsv_payload r) -> hex2 cs more (xor_all (gsv_payload r)) ->
  ~ In 36 (gsv_payload r) -> ~ In 36 more ->
  Z.of_nat (length (sentence (gsv_payload r) cs more)) < 2 ^ 32 ->
  fromNMEA N pf oor lc g (sentence (gsv_payload r) cs more) =
   Ok (true, Gnss (g_time g) (g_valid g) (g_satUsed g) (count_read pf (digits_value (v_view r))) (g_dilution g) (g_latitude g) (g_longitude g)
                  (g_north g) (g_east g) (g_speed g) (g_course g) (g_altitude g)).
Proof.
  intros N pf oor lc g r cs more Hok Hp Hx Hd1 Hd2 HL. destruct Hok as (W1 & W2 & W3 & W4).
  assert (NS : ~ In 42 (gsv_payload r)).
  { pose (r0 := Gsv (v_msgs r) (v_num r) [48] (v_rest r)).
    assert (H0 : ~ In 42 (gsv_payload r0)).
    { apply gsv_no_star. unfold gsv_ok, r0. cbn [v_msgs v_num v_view v_rest].
      split; [exact W1|]. split; [exact W2|]. split; [split; [reflexivity|discriminate]|]. split; [cbn; lia|exact W4]. }
    intros Hi. apply H0. unfold gsv_payload, r0 in *. cbn [v_msgs v_num v_view v_rest].
    destruct W3 as [W3 _].
    do 8 (rewrite ?in_app_iff in Hi; cbn [In] in Hi). do 8 (rewrite ?in_app_iff; cbn [In]).
    assert (~ In 42 (v_view r)) by (intros Hv; rewrite forallb_forall in W3; specialize (W3 42 Hv); discriminate). tauto. }
  pose proof (verify_sentence pf [] (gsv_payload r) cs more _ (fun x => x) (fun x => x) NS Hp Hx HL) as V.
  simpl app in V. rewrite Z.eqb_refl in V.
  assert (D : ~ In 36 (gsv_payload r ++ 42 :: cs ++ more)).
  { intros Hi. apply in_app_or in Hi. destruct Hi as [Hi|[Hi|Hi]]; [auto|discriminate|].
    apply in_app_or in Hi. destruct Hi as [Hi|Hi]; [|auto]. eapply hex2_no_dollar; eauto. }
  assert (R : find_sub RMC_HEADER (sentence (gsv_payload r) cs more) = None).
  { eapply not_header; [reflexivity|reflexivity|]. exact D. }
  assert (G : find_sub GGA_HEADER (sentence (gsv_payload r) cs more) = None).
  { eapply not_header; [reflexivity|reflexivity|]. exact D. }
  set (s := sentence (gsv_payload r) cs more) in *.
  assert (Es : s = (GSV_HEADER ++ [44]) ++ v_msgs r ++ 44 :: v_num r ++ 44 :: v_view r ++ 44 :: v_rest r ++ 42 :: cs ++ more).
  { unfold s, sentence, gsv_payload, comma, GSV_HEADER. repeat (simpl app; rewrite <- ?app_assoc). reflexivity. }
  assert (F : find_sub GSV_HEADER s = Some O).
  { rewrite Es. rewrite <- app_assoc. apply find_sub_head. }
  unfold fromNMEA. rewrite R, G, F. unfold fromGSV. rewrite V. cbn [bind negb]. rewrite F.
  assert (A := at_head (GSV_HEADER ++ [44]) (v_msgs r ++ 44 :: v_num r ++ 44 :: v_view r ++ 44 :: v_rest r ++ 42 :: cs ++ more)).
  rewrite <- Es in A. change (length (GSV_HEADER ++ [44])) with (0 + 6 + 1)%nat in A.
  assert (S44 : sep 44) by (left; reflexivity). clearbody s. clear V Hp Hx HL F R G Es.
  rewrite (int_step_any pf _ _ _ _ _ W1 S44 A). cbn [bind]. apply at_app, at_cons in A.
  rewrite (int_step_any pf _ _ _ _ _ W2 S44 A). cbn [bind]. apply at_app, at_cons in A.
  rewrite (int_step_any pf _ _ _ _ _ W3 S44 A). cbn [bind].
  rewrite count_strtol by (apply digits_value_nonneg; apply W3). reflexivity.
Qed.

(** ** The hypotheses are met *)
(** the first sync is always accepted, and 'J' answers 1 afterwards *)
Theorem C152_first_sync_accepted_refuted : forall (N : Num) (T : Trig N) pf oor qsort x j az alt g req extra resp max,
  permuting N qsort -> is_sync req -> no_start (first_field req) -> no_start (second_field req) -> 1 < max -> max <= len resp ->
  exists t', handleRequest N T pf oor qsort (Ok x) (Some j) (tele_init N az alt) g (req ++ extra) (len req) resp max =
    Ok (1, written [35] resp, t') /\ t_cal t' = true /\ numVertices (t_align t') = 1.
Proof.
  intros N T pf oor qsort x j az alt g req extra resp max Hq Hs N1 N2 H1 H2.
  rewrite C152_malformed_accepted_refuted by auto. unfold synced_at.
  destruct (P_Device.add_point N T qsort x j (tele_init N az alt) (turn N 0) (as_dec N (turn N 0)) (g_latitude g)
              (getLocalSiderealTimeDegrees N (g_time g) (g_longitude g)) Hq) as (t' & E & _ & _ & _ & Nt).
  - apply WF_init.
  - cbn. lia.
  - rewrite E. cbn [bind]. eexists. split; [reflexivity|]. split; [reflexivity|]. cbn [t_align]. rewrite Nt. reflexivity.
Qed.
Lemma denotes_go ds : forall pre v0 v, denotes pre v0 -> forallb (fun c => match digit_in 16 c with Some _ => true | None => false end) ds = true ->
  v = fold_left (fun acc c => 16 * acc + match digit_in 16 c with Some d => d | None => 0 end) ds v0 -> denotes (pre ++ ds) v.
Proof.
  induction ds as [|c ds IH]; intros pre v0 v H0 H E; cbn [fold_left] in E; [subst; rewrite app_nil_r; exact H0|].
  cbn [forallb] in H. destruct (digit_in 16 c) as [d|] eqn:Ed; [|discriminate].
  replace (pre ++ c :: ds) with ((pre ++ [c]) ++ ds) by (rewrite <- app_assoc; reflexivity).
  eapply IH; [|exact H|exact E]. constructor; [exact H0|]. apply hex_digit_of_in. exact Ed.
Qed.
Lemma no_hex_by c : digit_in 16 c = None -> no_hex c.
Proof. intros H d Hd. apply hex_digit_of_in in Hd. congruence. Qed.
Example C151_nonvacuous :
  let r1 := bytes_of "s12AB,  x,0xfF zzzz"%string in let r2 := bytes_of "s-1      ,zzzzzzzz"%string in
  is_sync r1 /\ means (first_field r1) 0x12AB /\ means (second_field r1) 0xFF /\
  is_sync r2 /\ means (first_field r2) 0xFFFFFFFF /\ means (second_field r2) 0 /\ word 0xFFFFFFFF.
Proof.
  cbv zeta. split; [eexists; split; [reflexivity|cbn; lia]|]. split.
  { apply (M_digits (bytes_of "12AB"%string) 0x12AB (bytes_of ",  x"%string)); [|discriminate|].
    - apply (denotes_go (bytes_of "12AB"%string) [] 0); [constructor|reflexivity|reflexivity].
    - split; [apply no_hex_by; reflexivity|split; discriminate]. }
  split.
  { apply (M_prefixed 120 (bytes_of "fF"%string) 0xFF (bytes_of " zzz"%string)); [left; reflexivity| |discriminate|].
    - apply (denotes_go (bytes_of "fF"%string) [] 0); [constructor|reflexivity|reflexivity].
    - split; [apply no_hex_by; reflexivity|split; discriminate]. }
  split; [eexists; split; [reflexivity|cbn; lia]|]. split.
  { apply (M_minus (bytes_of "1"%string) 1 (bytes_of "      "%string)); [|discriminate| |lia].
    - apply (denotes_go (bytes_of "1"%string) [] 0); [constructor|reflexivity|reflexivity].
    - split; [apply no_hex_by; reflexivity|split; discriminate]. }
  split; [apply M_nothing; split; [apply no_hex_by; reflexivity|]; cbn; repeat split; try discriminate; lia|]. split; lia.
Qed.
Example C152_nonvacuous : let r := bytes_of "szzzzzzzz,zzzzzzzz"%string in let r2 := bytes_of "s-1      ,00000000"%string in
  is_sync r /\ no_start (first_field r) /\ no_start (second_field r) /\
  is_sync r2 /\ first_field r2 = 45 :: [49] ++ bytes_of "      "%string /\ denotes [49] 1 /\ ends (bytes_of "      "%string) /\ second_field r2 = hex_upper 0 /\
  hexval [49] = 1.
Proof.
  cbv zeta. split; [eexists; split; [reflexivity|cbn; lia]|].
  split; [split; [apply no_hex_by; reflexivity|]; cbn; repeat split; try discriminate; lia|].
  split; [split; [apply no_hex_by; reflexivity|]; cbn; repeat split; try discriminate; lia|].
  split; [eexists; split; [reflexivity|cbn; lia]|]. split; [reflexivity|].
  split; [apply (denotes_go [49] [] 0); [constructor|reflexivity|reflexivity]|].
  split; [split; [apply no_hex_by; reflexivity|split; discriminate]|]. split; reflexivity.
Qed.
(** twenty digits: 2147483647 satellites on the device, 4294967295 on a PC *)
Definition vLong : gsv := Gsv (bytes_of "3"%string) (bytes_of "1"%string) (bytes_of "99999999999999999999"%string) (bytes_of "02"%string).
Example C153_nonvacuous : gsv_long vLong /\ char_plain esp32 (gsv_payload vLong) /\ char_plain pc64 (gsv_payload vLong) /\
  hex2 (bytes_of "55"%string) [] (xor_all (gsv_payload vLong)) /\ ~ In 36 (gsv_payload vLong) /\
  count_read esp32 (digits_value (v_view vLong)) = 2147483647 /\ count_read pc64 (digits_value (v_view vLong)) = 4294967295 /\
  count_read esp32 12 = 12 /\ count_read pc64 12 = 12 /\ count_read pc64 4294967308 = 12.
Proof.
  split. { repeat split; try (vm_compute; reflexivity); try discriminate. intros H; simpl in H; intuition discriminate. }
  assert (P : Forall (fun x => x < 128) (gsv_payload vLong)) by (apply Forall_forall; intros x Hx; apply Z.ltb_lt; revert x Hx; apply forallb_forall; vm_compute; reflexivity).
  split; [right; exact P|]. split; [right; exact P|].
  split. { exists 53, 53, 5, 5. repeat split; try reflexivity; discriminate. }
  split; [intros H; simpl in H; intuition discriminate|]. repeat split; vm_compute; reflexivity.
Qed.
Print Assumptions C151_any_fields. Print Assumptions C151_field_values. Print Assumptions C151_angles_ieee.
Print Assumptions C152_minus_on_pc_refuted. Print Assumptions C153_gsv_any_count.
