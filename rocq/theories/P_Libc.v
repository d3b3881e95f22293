(** Facts about the C library models. *)
From Verif Require Import Base Num M_Libc.

Lemma find_char_some c s k : find_char c s = Some k ->
  (k < length s)%nat /\ nth_error s k = Some c /\ ~ In c (firstn k s).
Proof.
  revert k; induction s as [|x s IH]; intros k H; simpl in H; [discriminate|].
  destruct (Z.eqb_spec x c).
  - inversion H; subst. simpl. repeat split; [lia|tauto].
  - destruct (find_char c s) as [j|]; [|discriminate]. inversion H; subst.
    destruct (IH j eq_refl) as (? & ? & ?). simpl. repeat split; [lia|auto|intros [?|?]; auto].
Qed.
Lemma find_char_none c s : find_char c s = None <-> ~ In c s.
Proof.
  induction s as [|x s IH]; simpl; [tauto|].
  destruct (Z.eqb_spec x c); [split; [discriminate|tauto]|].
  destruct (find_char c s); simpl; split; try discriminate; try tauto.
  intros H. exfalso. apply H. right. destruct (in_dec Z.eq_dec c s); auto.
  assert (Some n0 = None) by (apply IH; auto). discriminate.
Qed.
Lemma find_char_app c a b : ~ In c a -> find_char c (a ++ c :: b) = Some (length a).
Proof.
  induction a as [|x a IH]; intros H; simpl.
  - rewrite Z.eqb_refl. reflexivity.
  - destruct (Z.eqb_spec x c); [subst; exfalso; apply H; left; auto|].
    rewrite IH; [reflexivity|intros ?; apply H; right; auto].
Qed.
Lemma find_char_split c s k : find_char c s = Some k ->
  exists a b, s = a ++ c :: b /\ length a = k /\ ~ In c a.
Proof.
  intros H. apply find_char_some in H. destruct H as (H1 & H2 & H3).
  exists (firstn k s), (skipn (S k) s). split; [|split; auto].
  - rewrite <- (firstn_skipn k s) at 1. f_equal.
    clear H1 H3. revert s H2. induction k; intros [|x s] H; simpl in *; try discriminate.
    + inversion H; reflexivity.
    + rewrite IHk by auto. reflexivity.
  - apply firstn_length_le. lia.
Qed.
Lemma find_char_bound c s k : find_char c s = Some k -> (k < length s)%nat.
Proof. intros H. apply find_char_some in H. tauto. Qed.

Lemma is_prefix_spec p s : is_prefix p s = true <-> exists r, s = p ++ r.
Proof.
  revert s; induction p as [|x p IH]; intros s; simpl.
  - split; eauto.
  - destruct s as [|y s]; [split; [discriminate|intros [r H]; discriminate]|].
    rewrite andb_true_iff, IH, Z.eqb_eq. split.
    + intros [-> [r ->]]. eauto.
    + intros [r H]. inversion H; subst. eauto.
Qed.
Lemma find_sub_split p s k : find_sub p s = Some k -> exists a b, s = a ++ p ++ b /\ length a = k.
Proof.
  revert k; induction s as [|x s IH]; intros k H; simpl in H.
  - destruct (is_prefix p []) eqn:E; [|discriminate]. inversion H; subst.
    apply is_prefix_spec in E. destruct E as [r E]. exists [], r. auto.
  - destruct (is_prefix p (x :: s)) eqn:E.
    + inversion H; subst. apply is_prefix_spec in E. destruct E as [r E]. exists [], r. auto.
    + destruct (find_sub p s) as [j|]; [|discriminate]. inversion H; subst.
      destruct (IH j eq_refl) as (a & b & -> & <-). exists (x :: a), b. auto.
Qed.
Lemma find_sub_head p b : find_sub p (p ++ b) = Some O.
Proof.
  assert (E : is_prefix p (p ++ b) = true) by (apply is_prefix_spec; eauto).
  destruct (p ++ b) eqn:D; simpl; rewrite E; reflexivity.
Qed.
Lemma find_sub_none_in p s x : In x p -> ~ In x s -> find_sub p s = None.
Proof.
  intros Hx. induction s as [|y s IH]; intros Hs; simpl.
  - destruct (is_prefix p []) eqn:E; auto. apply is_prefix_spec in E. destruct E as [r E].
    destruct p; [destruct Hx|discriminate].
  - destruct (is_prefix p (y :: s)) eqn:E.
    + apply is_prefix_spec in E. destruct E as [r E]. exfalso. apply Hs. rewrite E. apply in_or_app; auto.
    + rewrite IH; [reflexivity|simpl in Hs; tauto].
Qed.

(** ** cursors *)
Definition at_ (s : list Z) (p : nat) (t : list Z) : Prop := (p <= length s)%nat /\ skipn p s = t.
Lemma skipn_skipn' {A} (l : list A) a b : skipn a (skipn b l) = skipn (b + a) l.
Proof. revert l; induction b; intros l; simpl; [reflexivity|]. destruct l; [destruct a; reflexivity|]. apply IHb. Qed.
Lemma at_app s p a b : at_ s p (a ++ b) -> at_ s (p + length a) b.
Proof.
  intros [H1 H2]. assert (L : length (skipn p s) = length (a ++ b)) by (rewrite H2; auto).
  rewrite skipn_length, app_length in L. split; [lia|].
  rewrite <- skipn_skipn', H2, skipn_app, skipn_all, Nat.sub_diag. reflexivity.
Qed.
Lemma at_cons s p x b : at_ s p (x :: b) -> at_ s (p + 1) b.
Proof. intros H. apply (at_app s p [x] b H). Qed.
Lemma at_char s p x b : at_ s p (x :: b) -> char_at s p = Ok x.
Proof.
  intros [H1 H2]. unfold char_at. apply rd_ok.
  assert (L : length (skipn p s) = length (x :: b)) by (rewrite H2; auto).
  rewrite skipn_length in L. simpl in L.
  rewrite nth_error_app1 by lia.
  rewrite <- (firstn_skipn p s), nth_error_app2 by (rewrite firstn_length_le; lia).
  rewrite firstn_length_le by lia. rewrite Nat.sub_diag, H2. reflexivity.
Qed.
Lemma at_cstr s p t : at_ s p t -> cstr_at s p = Ok (until_nul t).
Proof. intros [H1 H2]. unfold cstr_at. destruct (Nat.leb_spec p (length s)); [|lia]. rewrite H2. reflexivity. Qed.

Lemma until_nul_app a x b : ~ In 0 a -> x <> 0 -> until_nul (a ++ x :: b) = a ++ x :: until_nul b.
Proof.
  induction a as [|y a IH]; intros H Hx; simpl.
  - destruct (Z.eqb_spec x 0); [contradiction|reflexivity].
  - destruct (Z.eqb_spec y 0); [subst; exfalso; apply H; left; auto|].
    rewrite IH; auto. intros ?; apply H; right; auto.
Qed.
Lemma until_nul_length l : (length (until_nul l) <= length l)%nat.
Proof. induction l as [|x l IH]; simpl; [lia|]. destruct (x =? 0); simpl; lia. Qed.
Lemma until_nul_firstn l n : (n <= length (until_nul l))%nat -> firstn n (until_nul l) = firstn n l.
Proof.
  revert n; induction l as [|x l IH]; intros n H; simpl in *; [reflexivity|].
  destruct (x =? 0); simpl in *.
  - assert (n = O) by lia. subst. reflexivity.
  - destruct n; simpl; [reflexivity|]. rewrite IH by lia. reflexivity.
Qed.

(** ** digits *)
Lemma is_digit_range c : is_digit c = true <-> 48 <= c <= 57.
Proof. unfold is_digit. rewrite andb_true_iff, !Z.leb_le. tauto. Qed.
Lemma digit_in_10 c : is_digit c = true -> digit_in 10 c = Some (c - 48).
Proof.
  intros H. unfold digit_in, digit_of. unfold is_digit in H. rewrite H.
  apply andb_true_iff in H. rewrite !Z.leb_le in H.
  destruct (Z.ltb_spec (c - 48) 10); [reflexivity|lia].
Qed.
Lemma digit_in_10_none c : is_digit c = false -> digit_in 10 c = None.
Proof.
  intros H. unfold digit_in, digit_of. unfold is_digit in H. rewrite H.
  destruct ((65 <=? c) && (c <=? 90)) eqn:E; [apply andb_true_iff in E; rewrite !Z.leb_le in E; destruct (Z.ltb_spec (c - 55) 10); [lia|reflexivity]|].
  destruct ((97 <=? c) && (c <=? 122)) eqn:E2; [apply andb_true_iff in E2; rewrite !Z.leb_le in E2; destruct (Z.ltb_spec (c - 87) 10); [lia|reflexivity]|].
  reflexivity.
Qed.
Lemma digits_value_app a b : digits_value (a ++ b) = fold_left (fun acc c => acc * 10 + (c - 48)) b (digits_value a).
Proof. unfold digits_value. apply fold_left_app. Qed.
Lemma digits_fold_nonneg l acc : forallb is_digit l = true -> 0 <= acc ->
  0 <= fold_left (fun acc c => acc * 10 + (c - 48)) l acc.
Proof.
  revert acc; induction l as [|x l IH]; intros acc H Ha; simpl in *; auto.
  apply andb_true_iff in H. destruct H as [H1 H2]. apply is_digit_range in H1. apply IH; auto; lia.
Qed.
Lemma digits_value_nonneg l : forallb is_digit l = true -> 0 <= digits_value l.
Proof. intros H. apply digits_fold_nonneg; auto; lia. Qed.
Lemma digits_no_nul l x : forallb is_digit l = true -> is_digit x = false -> ~ In x l.
Proof. intros H Hx Hi. apply (proj1 (forallb_forall _ _) H) in Hi. congruence. Qed.

Lemma take_digits_run base ds x rest acc :
  forallb (fun c => match digit_in base c with Some _ => true | None => false end) ds = true ->
  digit_in base x = None ->
  take_digits base acc (ds ++ x :: rest) =
  (fold_left (fun acc c => acc * base + match digit_in base c with Some d => d | None => 0 end) ds acc, length ds).
Proof.
  revert acc; induction ds as [|d ds IH]; intros acc H Hx; simpl.
  - rewrite Hx. reflexivity.
  - simpl in H. apply andb_true_iff in H. destruct H as [H1 H2].
    destruct (digit_in base d) as [v|] eqn:E; [|discriminate]. rewrite IH by auto. reflexivity.
Qed.
Lemma take_digits_end base ds acc :
  forallb (fun c => match digit_in base c with Some _ => true | None => false end) ds = true ->
  take_digits base acc ds =
  (fold_left (fun acc c => acc * base + match digit_in base c with Some d => d | None => 0 end) ds acc, length ds).
Proof.
  revert acc; induction ds as [|d ds IH]; intros acc H; simpl; [reflexivity|].
  simpl in H. apply andb_true_iff in H. destruct H as [H1 H2].
  destruct (digit_in base d) as [v|] eqn:E; [|discriminate]. rewrite IH by auto. reflexivity.
Qed.
Lemma digits_10_all ds : forallb is_digit ds = true ->
  forallb (fun c => match digit_in 10 c with Some _ => true | None => false end) ds = true.
Proof.
  intros H. apply forallb_forall. intros x Hx. apply (proj1 (forallb_forall _ _) H) in Hx.
  rewrite digit_in_10 by auto. reflexivity.
Qed.
Lemma digits_10_fold ds acc : forallb is_digit ds = true ->
  fold_left (fun acc c => acc * 10 + match digit_in 10 c with Some d => d | None => 0 end) ds acc =
  fold_left (fun acc c => acc * 10 + (c - 48)) ds acc.
Proof.
  revert acc; induction ds as [|d ds IH]; intros acc H; simpl in *; [reflexivity|].
  apply andb_true_iff in H. destruct H as [H1 H2]. rewrite digit_in_10 by auto. auto.
Qed.
Lemma digit_not_space c : is_digit c = true -> is_space c = false.
Proof. intros H. apply is_digit_range in H. unfold is_space. destruct (Z.eqb_spec c 32); [lia|]. simpl.
  destruct (Z.leb_spec 9 c), (Z.leb_spec c 13); simpl; auto; lia. Qed.
Lemma take_ws_nospace c l : is_space c = false -> take_ws (c :: l) = (O, c :: l).
Proof. intros H. simpl. rewrite H. reflexivity. Qed.
Lemma take_sign_digit c l : 46 <= c -> take_sign (c :: l) = (false, O, c :: l).
Proof.
  intros H. unfold take_sign.
  destruct (Z.eq_dec c 45); [lia|]. destruct (Z.eq_dec c 43); [lia|].
  destruct c as [|p|p]; try reflexivity.
  do 6 (destruct p as [p|p|]; try reflexivity; try lia).
Qed.
Lemma take_0x_10 l : take_0x 10 l = (O, l).
Proof.
  unfold take_0x. destruct l as [|c l]; [reflexivity|]. destruct c as [|p|p]; try reflexivity.
  do 6 (destruct p as [p|p|]; try reflexivity); destruct l as [|x [|d l]]; reflexivity.
Qed.

(** strtol of a digit string that ends before a non-digit *)
Lemma strto_int_digits ds x rest : forallb is_digit ds = true -> ds <> [] -> is_digit x = false ->
  strto_int 10 (ds ++ x :: rest) = (false, digits_value ds, length ds).
Proof.
  intros H Hn Hx. destruct ds as [|d ds]; [congruence|].
  assert (Hd : is_digit d = true) by (simpl in H; apply andb_true_iff in H; tauto).
  unfold strto_int. rewrite <- app_comm_cons. rewrite take_ws_nospace by (apply digit_not_space; auto).
  rewrite take_sign_digit by (apply is_digit_range in Hd; lia).
  rewrite take_0x_10, app_comm_cons, take_digits_run by (auto using digits_10_all, digit_in_10_none).
  rewrite digits_10_fold by auto. reflexivity.
Qed.
Lemma strtol_digits pf ds x rest : forallb is_digit ds = true -> ds <> [] -> is_digit x = false ->
  digits_value ds < 2 ^ 31 -> strtol pf 10 (ds ++ x :: rest) = (digits_value ds, length ds).
Proof.
  intros H Hn Hx Hv. unfold strtol. rewrite strto_int_digits by auto. f_equal.
  apply Z.min_l. unfold long_max. destruct (w64 pf); lia.
Qed.
(** the value may exceed the range, the position does not care *)
Lemma strtol_digits_pos pf ds x rest : forallb is_digit ds = true -> ds <> [] -> is_digit x = false ->
  snd (strtol pf 10 (ds ++ x :: rest)) = length ds.
Proof. intros. unfold strtol. rewrite strto_int_digits by auto. reflexivity. Qed.

(** hexadecimal *)
Lemma digit_in_16 c d : digit_in 16 c = Some d -> 48 <= c /\ is_space c = false /\ c <> 120 /\ c <> 88 /\ c <> 0 /\ 0 <= d < 16.
Proof.
  unfold digit_in, digit_of, is_space. intros H.
  destruct (Z.leb_spec 48 c), (Z.leb_spec c 57); simpl in H;
    destruct (Z.leb_spec 65 c), (Z.leb_spec c 90); simpl in H;
    destruct (Z.leb_spec 97 c), (Z.leb_spec c 122); simpl in H; try discriminate; try lia;
    match type of H with context [?a <? 16] => destruct (Z.ltb_spec a 16); inversion H; subst end;
    destruct (Z.eqb_spec c 32), (Z.leb_spec 9 c), (Z.leb_spec c 13); simpl; repeat split; try lia.
Qed.
Definition hexval (l : list Z) : Z :=
  fold_left (fun acc c => acc * 16 + match digit_in 16 c with Some d => d | None => 0 end) l 0.
Definition hexdigits (l : list Z) : Prop := forallb (fun c => match digit_in 16 c with Some _ => true | None => false end) l = true.
Lemma take_0x_hex c l : (match l with x :: _ => x <> 120 /\ x <> 88 | [] => True end) -> take_0x 16 (c :: l) = (O, c :: l).
Proof.
  intros H. unfold take_0x. destruct (Z.eq_dec c 48) as [->|Hc].
  - destruct l as [|x [|d l]]; try reflexivity.
    destruct (Z.eqb_spec x 120), (Z.eqb_spec x 88); try tauto; reflexivity.
  - destruct c as [|p|p]; try reflexivity.
    do 6 (destruct p as [p|p|]; try reflexivity; try lia).
Qed.
Lemma strto_int_hex ds tail : hexdigits ds -> ds <> [] ->
  match tail with [] => True | x :: _ => digit_in 16 x = None end ->
  (length ds = 1%nat -> match tail with [] => True | x :: _ => x <> 120 /\ x <> 88 end) ->
  strto_int 16 (ds ++ tail) = (false, hexval ds, length ds).
Proof.
  intros H Hn Ht H1. destruct ds as [|c ds]; [congruence|]. unfold hexdigits in H. simpl in H.
  apply andb_true_iff in H. destruct H as [Hc Hd].
  destruct (digit_in 16 c) as [d|] eqn:E; [|discriminate]. pose proof (digit_in_16 _ _ E) as (R1 & R2 & R3 & R4 & R5 & R6).
  unfold strto_int. rewrite <- app_comm_cons. rewrite take_ws_nospace by auto. rewrite take_sign_digit by lia.
  rewrite take_0x_hex.
  - assert (T : take_digits 16 0 (c :: ds ++ tail) = (hexval (c :: ds), length (c :: ds))).
    { rewrite app_comm_cons. destruct tail as [|x tail].
      - rewrite app_nil_r. apply take_digits_end. simpl. rewrite E. auto.
      - apply take_digits_run; auto. simpl. rewrite E. auto. }
    rewrite T. reflexivity.
  - destruct ds as [|x ds]; simpl.
    + destruct tail as [|x tail]; [exact I|]. apply (H1 eq_refl).
    + simpl in Hd. apply andb_true_iff in Hd. destruct Hd as [Hx _].
      destruct (digit_in 16 x) eqn:Ex; [|discriminate]. apply digit_in_16 in Ex. tauto.
Qed.

(** ** the concrete strtof meets the interface *)
Lemma take_ws_length l : (fst (take_ws l) + length (snd (take_ws l)) = length l)%nat.
Proof. induction l as [|x l IH]; simpl; auto. destruct (is_space x); [|reflexivity]. destruct (take_ws l); simpl in *. lia. Qed.
Lemma take_ws_split l : l = firstn (fst (take_ws l)) l ++ snd (take_ws l) /\
  forall x, In x (firstn (fst (take_ws l)) l) -> is_space x = true.
Proof.
  induction l as [|x l IH]; simpl; [split; [auto|tauto]|].
  destruct (is_space x) eqn:E; simpl; [|split; [auto|tauto]].
  destruct (take_ws l) as [n r]; simpl in *. destruct IH as [H1 H2]. split; [rewrite H1 at 1; reflexivity|].
  intros y [<-|Hy]; auto.
Qed.
Lemma take_dec_split l : l = fst (take_dec l) ++ snd (take_dec l) /\ forallb is_digit (fst (take_dec l)) = true.
Proof.
  induction l as [|x l IH]; simpl; [auto|]. destruct (is_digit x) eqn:E; simpl; [|auto].
  destruct (take_dec l) as [d r]; simpl in *. destruct IH as [H1 H2]. rewrite E. split; [rewrite H1 at 1; reflexivity|auto].
Qed.
Lemma take_dec_run ds x r : forallb is_digit ds = true -> is_digit x = false -> take_dec (ds ++ x :: r) = (ds, x :: r).
Proof.
  induction ds as [|d ds IH]; intros H Hx; simpl; [rewrite Hx; reflexivity|].
  simpl in H. apply andb_true_iff in H. destruct H as [H1 H2]. rewrite H1, IH by auto. reflexivity.
Qed.
Lemma dec_strtof_consumes {N} (fd : Z -> nat -> F N) l :
  exists a b, l = a ++ b /\ snd (dec_strtof fd l) = length a /\ forall x, In x a -> x <> 44 /\ x <> 42.
Proof.
  unfold dec_strtof. destruct (take_ws_split l) as [W1 W2].
  destruct (take_ws l) as [n0 l1] eqn:E. simpl in W1, W2.
  assert (Ln : length (firstn n0 l) = n0).
  { apply firstn_length_le. pose proof (take_ws_length l) as T. rewrite E in T. simpl in T. lia. }
  assert (Hws : forall x, In x (firstn n0 l) -> x <> 44 /\ x <> 42).
  { intros x Hx. apply W2 in Hx. unfold is_space in Hx. split; intros ->; discriminate. }
  assert (Hdig : forall ds x, forallb is_digit ds = true -> In x ds -> x <> 44 /\ x <> 42).
  { intros ds x H Hx. apply (proj1 (forallb_forall _ _) H) in Hx. split; intros ->; discriminate. }
  destruct (take_dec_split l1) as [D1 D2]. destruct (take_dec l1) as [ds r] eqn:Ed. simpl in D1, D2.
  destruct ds as [|d ds]; [exists [], l; simpl; tauto|].
  assert (Base : exists a b, l = a ++ b /\ (n0 + length (d :: ds))%nat = length a /\ forall x, In x a -> x <> 44 /\ x <> 42).
  { exists (firstn n0 l ++ d :: ds), r. rewrite app_length, Ln. split; [rewrite <- app_assoc, <- D1; auto|split; auto].
    intros x Hx. apply in_app_or in Hx. destruct Hx; eauto. }
  destruct r as [|c r]; [exact Base|].
  destruct (Z.eq_dec c 46) as [->|Hc].
  - destruct (take_dec_split r) as [F1 F2]. destruct (take_dec r) as [fs r2]. simpl in F1, F2.
    exists (firstn n0 l ++ (d :: ds) ++ 46 :: fs), r2. rewrite !app_length, Ln. split; [|split].
    + rewrite <- !app_assoc. rewrite <- !app_comm_cons, <- F1. rewrite W1 at 1. f_equal. rewrite D1 at 1. reflexivity.
    + simpl. lia.
    + intros x Hx. apply in_app_or in Hx. destruct Hx as [Hx|Hx]; [eauto|].
      apply in_app_or in Hx. destruct Hx as [Hx|Hx]; [eauto|].
      destruct Hx as [<-|Hx]; [split; discriminate|eauto].
  - destruct c as [|p|p]; try exact Base. do 6 (destruct p as [p|p|]; try exact Base; try (exfalso; apply Hc; reflexivity)).
Qed.
Lemma dec_libc_bounded {N} (fd : Z -> nat -> F N) : strtof_bounded (dec_libc fd).
Proof.
  intros l. destruct (dec_strtof_consumes fd l) as (a & b & E & L & H).
  simpl. rewrite L. split; [rewrite E, app_length; lia|].
  intros x Hx. rewrite E, firstn_app, firstn_all, Nat.sub_diag in Hx. simpl in Hx. rewrite app_nil_r in Hx. auto.
Qed.
Lemma dec_libc_decimal {N} (fd : Z -> nat -> F N) : strtof_decimal (dec_libc fd).
Proof.
  assert (Hx2 : forall x, x = 44 \/ x = 42 -> is_digit x = false /\ x <> 46 /\ is_space x = false).
  { intros x [-> | ->]; repeat split; discriminate. }
  repeat split.
  - intros ds rest x H Hn Hx. destruct (Hx2 x Hx) as (H1 & H2 & H3). simpl. unfold dec_strtof.
    destruct ds as [|d ds]; [congruence|]. assert (Hd := H). simpl in Hd. apply andb_true_iff in Hd. destruct Hd as [Hd _].
    rewrite <- app_comm_cons, take_ws_nospace by (apply digit_not_space; auto).
    rewrite app_comm_cons, take_dec_run by auto. destruct Hx as [-> | ->]; reflexivity.
  - intros ds fs rest x H Hn Hf Hx. destruct (Hx2 x Hx) as (H1 & H2 & H3). simpl. unfold dec_strtof.
    destruct ds as [|d ds]; [congruence|]. assert (Hd := H). simpl in Hd. apply andb_true_iff in Hd. destruct Hd as [Hd _].
    rewrite <- app_comm_cons, take_ws_nospace by (apply digit_not_space; auto).
    rewrite app_comm_cons, take_dec_run by auto. rewrite take_dec_run by auto. reflexivity.
  - intros rest x Hx. destruct (Hx2 x Hx) as (H1 & H2 & H3). simpl. unfold dec_strtof.
    rewrite take_ws_nospace by auto. simpl. rewrite H1. reflexivity.
Qed.
