(** Splitting of receive buffers; numeric decoding. *)
From Verif Require Import Base Num M_Libc M_Helper M_Gnss S_Gnss P_Libc P_Gnss P_Gnss2 P_Round.
From Coq Require Import Reals Lra Psatz.
From Flocq Require Import Core.
Open Scope Z_scope.

Section Buffer.
Context (N : Num) (pf : platform) (oor : conv_policy) (lc : libc N).
Notation loop := (buffer_loop N pf oor lc).
Notation nmea := (fromNMEA N pf oor lc).

(** ** termination *)
Lemma find_from_some c s p k : find_from c s p = Some k -> (p <= k < length s)%nat.
Proof.
  unfold find_from. destruct (find_char c (skipn p s)) as [j|] eqn:E; simpl; [|discriminate].
  intros H; inversion H; subst. apply find_char_bound in E. rewrite skipn_length in E. lia.
Qed.
Lemma loop_fuel s : forall f1 f2 e n g, (length s - e < f1)%nat -> (length s - e < f2)%nat -> loop f1 s e n g = loop f2 s e n g.
Proof.
  induction f1; intros f2 e n g H1 H2; [lia|]. destruct f2; [lia|]. cbn [buffer_loop].
  destruct (find_from 36 s e); auto. destruct (find_from 10 s (e + 1)) as [en|] eqn:E; auto.
  apply find_from_some in E.
  destruct (nmea g (substr s n0 en)) as [[b g1]|]; cbn [bind]; auto. apply IHf1; lia.
Qed.
Lemma buffer_fuel g s k : loop (length s + 2 + k) s 0 0 g = fromBuffer N pf oor lc g s.
Proof. unfold fromBuffer. apply loop_fuel; lia. Qed.

(** ** well-structured buffers *)
Lemma find_from_at c s p a b : at_ s p (a ++ c :: b) -> ~ In c a -> find_from c s p = Some (p + length a)%nat.
Proof. intros [_ E] H. unfold find_from. rewrite E, find_char_app by auto. reflexivity. Qed.
Lemma find_from_none c s p t : at_ s p t -> ~ In c t -> find_from c s p = None.
Proof. intros [_ E] H. unfold find_from. rewrite E. rewrite (proj2 (find_char_none c t) H). reflexivity. Qed.

Fixpoint feed (l : list (list Z)) (n : Z) (g : gnss N) : res (Z * gnss N) :=
  match l with
  | [] => Ok (n, g)
  | s :: l => do '(b, g) <- nmea g s; feed l (if b : bool then n + 1 else n) g
  end.

Definition junk_ok (j : list Z) : Prop := ~ In 36 j /\ ~ In 10 j.
(** a line: junk, '$', body, newline *)
Definition line_text (l : list Z * list Z) : list Z := fst l ++ 36 :: snd l ++ [10].
Definition line_sentence (l : list Z * list Z) : list Z := 36 :: snd l ++ [10].
Definition line_ok (l : list Z * list Z) : Prop := junk_ok (fst l) /\ ~ In 10 (snd l).

Lemma loop_lines : forall lines tail s e x0 fuel n g,
  Forall line_ok lines -> ~ In 10 tail ->
  (x0 = [] /\ e = O \/ x0 = [10]) -> at_ s e (x0 ++ concat (map line_text lines) ++ tail) ->
  (length s - e < fuel)%nat ->
  loop fuel s e n g = feed (map line_sentence lines) n g.
Proof.
  induction lines as [|[j b] lines IH]; intros tail s e x0 fuel n g Hl Ht Hx A Hf; (destruct fuel; [lia|]).
  - cbn [buffer_loop map concat feed]. cbn [map concat app] in A.
    assert (E : find_from 10 s (e + 1) = None).
    { destruct Hx as [[-> ->]| ->].
      - simpl in A. destruct tail as [|c tail].
        + destruct A as [_ A]. simpl in A. subst. reflexivity.
        + apply (find_from_none 10 s (0 + 1) tail); [apply at_cons in A; exact A|intros ?; apply Ht; right; auto].
      - simpl in A. apply at_cons in A. apply (find_from_none 10 s _ _ A Ht). }
    rewrite E. destruct (find_from 36 s e); reflexivity.
  - inversion Hl as [|? ? [[J1 J2] B] Hl']; subst. cbn [fst snd] in *.
    cbn [buffer_loop map feed]. cbn [map concat] in A. unfold line_text at 1 in A. cbn [fst snd] in A.
    set (rest := concat (map line_text lines) ++ tail) in *.
    assert (A1 : at_ s e (x0 ++ j ++ 36 :: b ++ 10 :: rest)).
    { unfold rest. rewrite <- !app_assoc in A. repeat (cbn [app] in A; rewrite <- ?app_assoc in A). exact A. }
    clear A. set (p := (e + length x0)%nat).
    assert (A2 : at_ s p (j ++ 36 :: b ++ 10 :: rest)) by (apply at_app; auto).
    assert (E1 : find_from 36 s e = Some (p + length j)%nat).
    { rewrite app_assoc in A1. rewrite (find_from_at _ _ _ _ _ A1); [rewrite app_length; unfold p; f_equal; lia|].
      intros Hi. apply in_app_or in Hi. destruct Hi as [Hi|Hi]; [|auto]. destruct Hx as [[-> _]| ->]; [destruct Hi|]. destruct Hi as [Hi|[]]. discriminate. }
    assert (E2 : find_from 10 s (e + 1) = Some (p + length j + 1 + length b)%nat).
    { destruct Hx as [[-> ->]| ->].
      - unfold p in *. cbn [app length Nat.add] in *.
        destruct j as [|c j]; cbn [app length] in *.
        + apply at_cons in A1. change (0 + 1)%nat with 1%nat in A1. rewrite (find_from_at _ _ _ _ _ A1) by auto. f_equal. 
        + apply at_cons in A1. change (0 + 1)%nat with 1%nat in A1. change (j ++ 36 :: b ++ 10 :: rest) with (j ++ (36 :: b) ++ 10 :: rest) in A1. rewrite app_assoc in A1.
          rewrite (find_from_at _ _ _ _ _ A1); [rewrite app_length; simpl; f_equal; lia|].
          intros Hi. apply in_app_or in Hi. destruct Hi as [Hi|[Hi|Hi]]; [apply J2; right; auto|discriminate|auto].
      - unfold p in *. cbn [length] in *. 
        change (j ++ 36 :: b ++ 10 :: rest) with (j ++ (36 :: b) ++ 10 :: rest) in A2. rewrite app_assoc in A2.
        rewrite (find_from_at _ _ _ _ _ A2); [rewrite app_length; simpl; f_equal; lia|].
        intros Hi. apply in_app_or in Hi. destruct Hi as [Hi|[Hi|Hi]]; [auto|discriminate|auto]. }
    rewrite E1, E2.
    assert (A3 : at_ s (p + length j) (36 :: b ++ 10 :: rest)) by (apply at_app; auto).
    assert (Sub : substr s (p + length j) (p + length j + 1 + length b) = line_sentence (j, b)).
    { unfold substr, line_sentence. cbn [snd]. destruct A3 as [_ A3]. rewrite A3.
      replace (Z.of_nat (p + length j + 1 + length b) - Z.of_nat (p + length j) + 1)%Z with (Z.of_nat (2 + length b)) by lia.
      destruct (Z.ltb_spec (Z.of_nat (2 + length b)) 0); [lia|]. rewrite Nat2Z.id.
      change (firstn (2 + length b) (36 :: b ++ 10 :: rest)) with (36 :: firstn (S (length b)) (b ++ 10 :: rest)). apply (f_equal (cons 36)). rewrite firstn_app. rewrite firstn_all2 by lia.
      replace (S (length b) - length b)%nat with 1%nat by lia. reflexivity. }
    rewrite Sub. destruct (nmea g (line_sentence (j, b))) as [[ok g1]|]; cbn [bind]; [|reflexivity].
    assert (A4 : at_ s (p + length j + 1 + length b) ([10] ++ rest)).
    { apply at_cons in A3. apply at_app in A3. exact A3. }
    apply (IH tail s _ [10]); auto.
    assert (L : (p + length j + 1 + length b < length s)%nat).
    { destruct A4 as [L1 L2]. assert (length (skipn (p + length j + 1 + length b) s) = length ([10] ++ rest)) by (rewrite L2; auto).
      rewrite skipn_length in H. simpl in H. lia. }
    unfold p in *. lia.
Qed.
Lemma buffer_lines lines tail g : Forall line_ok lines -> ~ In 10 tail ->
  fromBuffer N pf oor lc g (concat (map line_text lines) ++ tail) = feed (map line_sentence lines) 0 g.
Proof.
  intros H1 H2. unfold fromBuffer. apply (loop_lines lines tail _ 0 []); auto; [|lia].
  split; [lia|reflexivity].
Qed.
End Buffer.

(** ** numbers *)
Open Scope R_scope.
Definition sgn (positive : bool) : R := if positive then 1 else -1.
Lemma decode_degrees_R pos (d : Z) (m : R) : 0 <= m < 100 ->
  (decode_degrees NumR pos (100 * IZR d + m) : R) = sgn pos * (IZR d + m / 60).
Proof.
  intros Hm. unfold decode_degrees. cbn [f32 fmul fadd fdiv fsub ffloor fZ NumR].
  assert (E : Zfloor ((100 * IZR d + m) / 100) = d) by (apply Zfloor_imp; rewrite plus_IZR; split; lra).
  rewrite E. unfold sgn. destruct pos; simpl; field.
Qed.

Lemma to_i32_int N oor x z : ftrunc N x = Some z -> (-2147483648 <= z < 2147483648)%Z -> to_i32 N oor x = Ok z.
Proof.
  intros E H. unfold to_i32. rewrite E. replace (_ && _)%bool with true; auto.
  symmetry. apply andb_true_iff. rewrite Z.leb_le, Z.ltb_lt. lia.
Qed.

(** hhmmss with a fraction; exact *)
Lemma decode_time_R oor (h m s : Z) (f : R) t : (0 <= h < 24)%Z -> (0 <= m < 60)%Z -> (0 <= s < 60)%Z -> 0 <= f < 1 ->
  decode_time NumR oor (IZR (h * 10000 + m * 100 + s) + f) t = Ok (Tm s m h (tm_mday t) (tm_mon t) (tm_year t)).
Proof.
  intros Hh Hm Hs Hf. set (x := IZR (h * 10000 + m * 100 + s) + f).
  assert (X : x = IZR h * 10000 + IZR m * 100 + IZR s + f) by (unfold x; rewrite !plus_IZR, !mult_IZR; ring).
  assert (0 <= IZR m <= 59) by (split; apply IZR_le; lia). assert (0 <= IZR s <= 59) by (split; apply IZR_le; lia).
  unfold decode_time. cbn [f32 fmul fadd fdiv fsub ffloor fZ NumR].
  assert (E1 : Zfloor (x / 10000) = h) by (apply Zfloor_imp; rewrite plus_IZR, X; split; lra).
  assert (E2 : Zfloor (x / 100) = (h * 100 + m)%Z) by (apply Zfloor_imp; rewrite !plus_IZR, mult_IZR, X; split; lra).
  assert (E3 : Zfloor x = (h * 10000 + m * 100 + s)%Z) by (apply Zfloor_imp; rewrite !plus_IZR, !mult_IZR, X; split; lra).
  rewrite E1, E2, E3.
  rewrite (to_i32_int NumR oor _ h) by (try (cbn [ftrunc NumR]; rewrite Ztrunc_IZR; reflexivity); lia). cbn [bind].
  assert (F2 : IZR (h * 100 + m) - IZR h * 100 = IZR m) by (rewrite plus_IZR, mult_IZR; ring).
  rewrite F2. rewrite (to_i32_int NumR oor _ m) by (try (cbn [ftrunc NumR]; rewrite Ztrunc_IZR; reflexivity); lia). cbn [bind].
  assert (F3 : IZR (h * 10000 + m * 100 + s) - IZR h * 10000 - IZR m * 100 = IZR s) by (rewrite !plus_IZR, !mult_IZR; ring).
  rewrite F3. rewrite (to_i32_int NumR oor _ s) by (try (cbn [ftrunc NumR]; rewrite Ztrunc_IZR; reflexivity); lia). reflexivity.
Qed.

(** IEEE: float arithmetic; up to 99 hundredths of a second *)
Lemma decode_time_B oor (h m s : Z) (f : R) t : (0 <= h < 24)%Z -> (0 <= m < 60)%Z -> (0 <= s < 60)%Z -> 0 <= f <= 99 / 100 ->
  decode_time NumB oor (b32 (IZR (h * 10000 + m * 100 + s) + f)) t = Ok (Tm s m h (tm_mday t) (tm_mon t) (tm_year t)).
Proof.
  intros Hh Hm Hs Hf. set (T := (h * 10000 + m * 100 + s)%Z).
  assert (BT : (0 <= T <= 235959)%Z) by (unfold T; lia).
  set (x := b32 (IZR T + f)).
  assert (RT : 0 <= IZR T <= 235959) by (split; apply IZR_le; lia).
  assert (TE : IZR T = IZR h * 10000 + IZR m * 100 + IZR s) by (unfold T; rewrite !plus_IZR, !mult_IZR; ring).
  assert (0 <= IZR h <= 23) by (split; apply IZR_le; lia).
  assert (0 <= IZR m <= 59) by (split; apply IZR_le; lia). assert (0 <= IZR s <= 59) by (split; apply IZR_le; lia).
  assert (X0 : IZR T <= x) by (apply b32_floor_ge; [lia|lra]).
  assert (X1 : x < IZR T + 1).
  { assert (E : Rabs (b32 (IZR T + f) - (IZR T + f)) <= bpow radix2 (18 - 25)).
    { apply b32_error_lt; [lia|]. rewrite Rabs_pos_eq by lra. simpl; lra. }
    apply Rabs_le_inv in E. simpl bpow in E. unfold x. lra. }
  clearbody x.
  unfold decode_time. cbn [f32 fmul fadd fdiv fsub ffloor fZ NumB].
  rewrite (b64_of_int 10000), (b64_of_int 100) by lia.
  assert (E1 : Zfloor (b32 (b64 (x / 10000))) = h).
  { apply Zfloor_imp. rewrite plus_IZR. split.
    - apply b32_floor_ge; [lia|]. apply b64_floor_ge; [lia|]. lra.
    - assert (b64 (x / 10000) <= IZR h + 3 / 4).
      { replace (IZR h + 3 / 4) with (b64 (IZR (4 * h + 3) * bpow radix2 (-2))).
        - apply b64_mono. rewrite plus_IZR, mult_IZR. simpl bpow. lra.
        - rewrite b64_id by (apply is_b64_dyadic; lia). rewrite plus_IZR, mult_IZR. simpl bpow. lra. }
      assert (b32 (b64 (x / 10000)) <= IZR h + 3 / 4); [|lra].
      { replace (IZR h + 3 / 4) with (b32 (IZR (4 * h + 3) * bpow radix2 (-2))).
        - apply b32_mono. rewrite plus_IZR, mult_IZR. simpl bpow. lra.
        - rewrite b32_id by (apply is_b32_dyadic; lia). rewrite plus_IZR, mult_IZR. simpl bpow. lra. } }
  assert (E2 : Zfloor (b32 (b64 (x / 100))) = (h * 100 + m)%Z).
  { apply Zfloor_imp. assert (IZR (h * 100 + m) = IZR h * 100 + IZR m) as K by (rewrite plus_IZR, mult_IZR; ring). split.
    - apply b32_floor_ge; [lia|]. apply b64_floor_ge; [lia|]. lra.
    - rewrite plus_IZR.
      assert (b64 (x / 100) <= IZR (h * 100 + m) + 3 / 4).
      { replace (IZR (h * 100 + m) + 3 / 4) with (b64 (IZR (4 * (h * 100 + m) + 3) * bpow radix2 (-2))).
        - apply b64_mono. rewrite plus_IZR, (mult_IZR 4). simpl bpow. lra.
        - rewrite b64_id by (apply is_b64_dyadic; lia). rewrite plus_IZR, (mult_IZR 4). simpl bpow. lra. }
      assert (b32 (b64 (x / 100)) <= IZR (h * 100 + m) + 3 / 4); [|lra].
      { replace (IZR (h * 100 + m) + 3 / 4) with (b32 (IZR (4 * (h * 100 + m) + 3) * bpow radix2 (-2))).
        - apply b32_mono. rewrite plus_IZR, (mult_IZR 4). simpl bpow. lra.
        - rewrite b32_id by (apply is_b32_dyadic; lia). rewrite plus_IZR, (mult_IZR 4). simpl bpow. lra. } }
  assert (E3 : Zfloor x = T) by (apply Zfloor_imp; rewrite plus_IZR; split; lra).
  rewrite E1, E2, E3.
  rewrite (to_i32_int NumB oor _ h) by (try (cbn [ftrunc NumB]; rewrite Ztrunc_IZR; reflexivity); lia). cbn [bind].
  assert (K : forall a b c d : Z, (Z.abs c < 2 ^ 20)%Z -> (c = a * b)%Z -> (0 <= a < 2^20)%Z -> (Z.abs b < 2^20)%Z -> (d = c)%Z -> b32 (b64 (b32 (b64 (IZR a)) * IZR b)) = IZR d).
  { intros a b c d Hc Ec Ha Hb Ed. subst d. rewrite (b64_of_int a), (b32_of_int a) by lia. rewrite <- mult_IZR, <- Ec, b64_of_int, b32_of_int by lia. reflexivity. }
  assert (S : forall a b c : Z, (c = a - b)%Z -> (Z.abs c < 2 ^ 20)%Z -> b32 (b64 (IZR a - IZR b)) = IZR c).
  { intros a b c -> Hc. rewrite <- minus_IZR, b64_of_int, b32_of_int by lia. reflexivity. }
  rewrite (K h 100%Z (h * 100)%Z (h * 100)%Z) by lia.
  rewrite (S (h * 100 + m)%Z (h * 100)%Z m) by lia.
  rewrite (to_i32_int NumB oor _ m) by (try (cbn [ftrunc NumB]; rewrite Ztrunc_IZR; reflexivity); lia). cbn [bind].
  rewrite (K h 10000%Z (h * 10000)%Z (h * 10000)%Z) by lia.
  rewrite (K m 100%Z (m * 100)%Z (m * 100)%Z) by lia.
  rewrite (S T (h * 10000)%Z (m * 100 + s)%Z) by (unfold T in *; lia).
  rewrite (S (m * 100 + s)%Z (m * 100)%Z s) by lia.
  rewrite (to_i32_int NumB oor _ s) by (try (cbn [ftrunc NumB]; rewrite Ztrunc_IZR; reflexivity); lia). reflexivity.
Qed.

(** position in float arithmetic: within 1/40000 degree (less than 3 m) *)
Lemma decode_degrees_B pos (d : Z) (m : R) : (0 <= d <= 180)%Z -> 0 <= m < 60 -> 
  Rabs (decode_degrees NumB pos (b32 (100 * IZR d + m)) - sgn pos * (IZR d + m / 60)) <= 1 / 40000.
Proof.
  intros Hd Hm. assert (RD : 0 <= IZR d <= 180) by (split; apply IZR_le; lia).
  set (x := b32 (100 * IZR d + m)).
  assert (X0 : IZR (100 * d) <= x) by (apply b32_floor_ge; [lia|rewrite mult_IZR; lra]). rewrite mult_IZR in X0.
  assert (X2 : x <= IZR (100 * d + 60)) by (apply b32_le_int; [lia|rewrite plus_IZR, mult_IZR; lra]). rewrite plus_IZR, mult_IZR in X2.
  assert (XE : Rabs (x - (100 * IZR d + m)) <= bpow radix2 (15 - 25)).
  { apply b32_error_lt; [lia|]. rewrite Rabs_pos_eq by lra. simpl; lra. }
  assert (XF : is_b32 x) by apply is_b32_round.
  clearbody x.
  unfold decode_degrees. cbn [f32 fmul fadd fdiv fsub ffloor fZ NumB].
  rewrite (b64_of_int 100), (b64_of_int 60) by lia.
  assert (E1 : Zfloor (b32 (b64 (x / 100))) = d).
  { apply Zfloor_imp. rewrite plus_IZR. split.
    - apply b32_floor_ge; [lia|]. apply b64_floor_ge; [lia|]. lra.
    - assert (b64 (x / 100) <= IZR d + 3 / 4).
      { replace (IZR d + 3 / 4) with (b64 (IZR (4 * d + 3) * bpow radix2 (-2))).
        - apply b64_mono. rewrite plus_IZR, mult_IZR. simpl bpow. lra.
        - rewrite b64_id by (apply is_b64_dyadic; lia). rewrite plus_IZR, mult_IZR. simpl bpow. lra. }
      assert (b32 (b64 (x / 100)) <= IZR d + 3 / 4); [|lra].
      { replace (IZR d + 3 / 4) with (b32 (IZR (4 * d + 3) * bpow radix2 (-2))).
        - apply b32_mono. rewrite plus_IZR, mult_IZR. simpl bpow. lra.
        - rewrite b32_id by (apply is_b32_dyadic; lia). rewrite plus_IZR, mult_IZR. simpl bpow. lra. } }
  rewrite E1.
  assert (E2 : b32 (b64 (IZR d * 100)) = 100 * IZR d).
  { rewrite <- mult_IZR, b64_of_int, b32_of_int, mult_IZR by lia. ring. }
  rewrite E2.
  (* the difference, two roundings *)
  set (y := x - 100 * IZR d).
  assert (Y0 : 0 <= y <= 60) by (unfold y; lra).
  assert (Y1 : Rabs (b64 y - y) <= bpow radix2 (6 - 54)) by (apply b64_error_lt; [lia|rewrite Rabs_pos_eq by lra; simpl; lra]).
  assert (Y2 : 0 <= b64 y <= 60) by (split; [apply (b64_floor_ge y 0)|apply (b64_le_int y 60)]; try lia; lra).
  assert (Y3 : Rabs (b32 (b64 y) - b64 y) <= bpow radix2 (6 - 25)) by (apply b32_error_lt; [lia|rewrite Rabs_pos_eq by lra; simpl; lra]).
  set (y' := b32 (b64 y)) in *.
  assert (Y4 : 0 <= y' <= 60) by (split; [apply (b32_floor_ge _ 0)|apply (b32_le_int _ 60)]; try lia; lra).
  apply Rabs_le_inv in Y1, Y3, XE.
  set (z := y' / 60). assert (Z0 : 0 <= z <= 1) by (unfold z; lra).
  assert (Z1 : Rabs (b64 z - z) <= bpow radix2 (1 - 54)) by (apply b64_error_lt; [lia|rewrite Rabs_pos_eq by lra; simpl; lra]).
  assert (Z2 : 0 <= b64 z <= 1) by (split; [apply (b64_floor_ge z 0)|apply (b64_le_int z 1)]; try lia; lra).
  assert (Z3 : Rabs (b32 (b64 z) - b64 z) <= bpow radix2 (1 - 25)) by (apply b32_error_lt; [lia|rewrite Rabs_pos_eq by lra; simpl; lra]).
  set (z' := b32 (b64 z)) in *.
  assert (Z4 : 0 <= z' <= 1) by (split; [apply (b32_floor_ge _ 0)|apply (b32_le_int _ 1)]; try lia; lra).
  apply Rabs_le_inv in Z1, Z3.
  set (w := IZR d + z'). assert (W0 : 0 <= w <= 181) by (unfold w; lra).
  assert (W1 : Rabs (b64 w - w) <= bpow radix2 (8 - 54)) by (apply b64_error_lt; [lia|rewrite Rabs_pos_eq by lra; simpl; lra]).
  assert (W2 : 0 <= b64 w <= 181) by (split; [apply (b64_floor_ge w 0)|apply (b64_le_int w 181)]; try lia; lra).
  assert (W3 : Rabs (b32 (b64 w) - b64 w) <= bpow radix2 (8 - 25)) by (apply b32_error_lt; [lia|rewrite Rabs_pos_eq by lra; simpl; lra]).
  set (w' := b32 (b64 w)) in *.
  assert (W4 : is_b32 w') by apply is_b32_round.
  apply Rabs_le_inv in W1, W3.
  assert (G : b32 (b64 (b64 (IZR (if pos then 1 else -1)) * w')) = sgn pos * w').
  { rewrite b64_of_int by (destruct pos; simpl; lia).
    assert (S1 : IZR (if pos then 1 else -1) * w' = sgn pos * w') by (destruct pos; reflexivity). rewrite S1.
    assert (is_b32 (sgn pos * w')).
    { destruct pos; unfold sgn; [rewrite Rmult_1_l; auto|]. replace (-1 * w') with (- w') by ring. apply generic_format_opp; auto. }
    rewrite b64_id by (apply is_b32_b64; auto). apply b32_id; auto. }
  rewrite G. rewrite <- Rmult_minus_distr_l, Rabs_mult.
  assert (S2 : Rabs (sgn pos) = 1) by (destruct pos; unfold sgn; [apply Rabs_R1|rewrite Rabs_left; lra]).
  rewrite S2, Rmult_1_l. apply Rabs_le.
  clear G S2 W4 XF E1 E2. simpl bpow in *. unfold w, z, y in *.
  split; lra.
Qed.

Lemma decode_date_spec dd mm yy t : (0 <= dd)%Z -> (0 <= mm < 100)%Z -> (0 <= yy < 100)%Z ->
  decode_date (dd * 10000 + mm * 100 + yy) t = Tm (tm_sec t) (tm_min t) (tm_hour t) dd mm (2000 + yy).
Proof.
  intros H1 H2 H3. unfold decode_date.
  assert (E : ((dd * 10000 + mm * 100 + yy) / 10000 = dd)%Z) by (symmetry; apply Z.div_unique with (mm * 100 + yy)%Z; lia).
  assert (E2 : ((dd * 10000 + mm * 100 + yy) / 100 = dd * 100 + mm)%Z) by (symmetry; apply Z.div_unique with yy; lia).
  rewrite E, E2. f_equal; lia.
Qed.
