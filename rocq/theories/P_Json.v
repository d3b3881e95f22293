From Verif Require Import Base S_Json.
(** the last byte *)
Definition ends (l : list Z) (c : Z) : Prop := exists p, l = p ++ [c].
Lemma ends_app a b c : ends b c -> ends (a ++ b) c.
Proof. intros (p & ->). exists (a ++ p). now rewrite app_assoc. Qed.
Lemma ends_cons x b c : ends b c -> ends (x :: b) c.
Proof. intros (p & ->). exists (x :: p). reflexivity. Qed.
Lemma ends_one a c : ends (a ++ [c]) c.
Proof. exists a. reflexivity. Qed.
Lemma ends_inj l c d : ends l c -> ends l d -> c = d.
Proof. intros (p & ->) (q & E). apply app_inj_tail in E. tauto. Qed.
Lemma forall_ends (P : Z -> Prop) l : l <> [] -> Forall P l -> exists c, ends l c /\ P c.
Proof.
  intros H F. destruct (exists_last H) as (p & c & E). subst l. exists c. split; [exists p; reflexivity|].
  apply Forall_app in F. destruct F as [_ F]. now inversion F.
Qed.
Definition closing (c : Z) : Prop := is_digit c \/ c = 34 \/ c = 93 \/ c = 125 \/ c = 101 \/ c = 108.
Lemma digits_end d : digits d -> exists c, ends d c /\ is_digit c.
Proof. intros [H F]. exact (forall_ends _ _ H F). Qed.
Lemma number_end l : j_number l -> exists c, ends l c /\ closing c.
Proof.
  intros (s & i & f & e & Hs & Hi & Hf & He & ->).
  assert (exists c, ends (i ++ f ++ e) c /\ is_digit c) as (c & E & D).
  { destruct He as [->|(x & y & d & _ & _ & Hd & ->)].
    - rewrite app_nil_r. destruct Hf as [->|(d & Hd & ->)].
      + rewrite app_nil_r. destruct Hi as [->|[Hi _]]; [exists 48; split; [exists []; reflexivity|unfold is_digit; lia]|now apply digits_end].
      + apply digits_end in Hd. destruct Hd as (c & E & D). exists c. split; [apply ends_app, ends_cons; exact E|exact D].
    - apply digits_end in Hd. destruct Hd as (c & E & D). exists c. split; [apply ends_app, ends_app, ends_cons, ends_app; exact E|exact D]. }
  exists c. split; [apply ends_app; exact E|left; exact D].
Qed.
Lemma value_end l : j_value l -> exists c, ends l c /\ closing c.
Proof.
  destruct 1 as [l H|l H|l H|w H|l H|w H|l H].
  - destruct H as [<-|[<-|[<-|[]]]]; [exists 101|exists 101|exists 108]; (split; [|unfold closing; tauto]).
    + exists [116; 114; 117]; reflexivity.
    + exists [102; 97; 108; 115]; reflexivity.
    + exists [110; 117; 108]; reflexivity.
  - now apply number_end.
  - destruct H as (c & _ & ->). exists 34. split; [apply ends_cons, ends_one|unfold closing; tauto].
  - exists 93. split; [apply ends_cons, ends_one|unfold closing; tauto].
  - exists 93. split; [apply ends_cons, ends_one|unfold closing; tauto].
  - exists 125. split; [apply ends_cons, ends_one|unfold closing; tauto].
  - exists 125. split; [apply ends_cons, ends_one|unfold closing; tauto].
Qed.
Lemma value_ws_end v b : j_value v -> ws b -> exists c, ends (v ++ b) c /\ (closing c \/ is_ws c).
Proof.
  intros Hv Hb. destruct b as [|x b].
  - rewrite app_nil_r. destruct (value_end _ Hv) as (c & E & C). eauto.
  - destruct (forall_ends _ (x :: b) ltac:(discriminate) Hb) as (c & E & C). exists c. split; [apply ends_app; exact E|auto].
Qed.
Lemma elements_end l : j_elements l -> exists c, ends l c /\ (closing c \/ is_ws c).
Proof.
  induction 1 as [a v b Ha Hv Hb|a v b l Ha Hv Hb Hl IH].
  - destruct (value_ws_end v b Hv Hb) as (c & E & C). exists c. split; [apply ends_app; exact E|exact C].
  - destruct IH as (c & E & C). exists c. split; [do 3 apply ends_app; apply ends_cons; exact E|exact C].
Qed.
(** No JSON text ends in ",]". *)
Lemma trailing_comma l : ~ json (l ++ [44; 93]).
Proof.
  intros (a & v & b & Ha & Hv & Hb & E).
  assert (X : exists p, a ++ v ++ b = p ++ [93]) by (exists (l ++ [44]); rewrite <- E, <- app_assoc; reflexivity).
  assert (Eb : b = []).
  { destruct b as [|x b]; [reflexivity|]. destruct (forall_ends _ (x :: b) ltac:(discriminate) Hb) as (c & Ec & C).
    assert (c = 93) by (eapply ends_inj; [apply ends_app, ends_app; exact Ec|exact X]). subst. exfalso. unfold is_ws in C. lia. }
  subst b. rewrite app_nil_r in *.
  assert (Y : ends v 93).
  { destruct (value_end v Hv) as (c & Ec & C). assert (c = 93) by (eapply ends_inj; [apply ends_app; exact Ec|exact X]). now subst. }
  assert (W : forall w, l ++ [44; 93] = a ++ 91 :: w ++ [93] -> exists q, a ++ 91 :: w = q ++ [44]).
  { intros w Ew. exists l. assert ((l ++ [44]) ++ [93] = (a ++ 91 :: w) ++ [93]) as Z by (rewrite <- !app_assoc; exact Ew).
    apply app_inj_tail in Z. now destruct Z. }
  assert (K : forall w c, ends (91 :: w) c -> l ++ [44; 93] = a ++ 91 :: w ++ [93] -> c = 44).
  { intros w c Ec Ew. destruct (W w Ew) as (q & Q). eapply ends_inj; [apply (ends_app a); exact Ec|exists q; exact Q]. }
  inversion Hv as [l' H El|l' H El|l' H El|w H El|l' H El|w H El|l' H El]; subst.
  - destruct H as [<-|[<-|[<-|[]]]].
    + apply (ends_inj _ 93 101) in Y; [discriminate|exists [116; 114; 117]; reflexivity].
    + apply (ends_inj _ 93 101) in Y; [discriminate|exists [102; 97; 108; 115]; reflexivity].
    + apply (ends_inj _ 93 108) in Y; [discriminate|exists [110; 117; 108]; reflexivity].
  - destruct H as (s & i & f & e & H). assert (N : j_number v) by (exists s, i, f, e; exact H).
    destruct H as (Hs & Hi & Hf & He & Ev).
    assert (exists c, ends v c /\ is_digit c) as (c & Ec & D).
    { rewrite Ev. destruct He as [->|(x & y & d & _ & _ & Hd & ->)].
      - rewrite app_nil_r. destruct Hf as [->|(d & Hd & ->)].
        + rewrite app_nil_r. destruct Hi as [->|[Hi _]]; [exists 48; split; [apply ends_app; exists []; reflexivity|unfold is_digit; lia]|].
          apply digits_end in Hi. destruct Hi as (c & E1 & D). exists c. split; [apply ends_app; exact E1|exact D].
        + apply digits_end in Hd. destruct Hd as (c & E1 & D). exists c. split; [apply ends_app, ends_app, ends_cons; exact E1|exact D].
      - apply digits_end in Hd. destruct Hd as (c & E1 & D). exists c. split; [apply ends_app, ends_app, ends_app, ends_cons, ends_app; exact E1|exact D]. }
    pose proof (ends_inj _ _ _ Ec Y) as ->. unfold is_digit in D. lia.
  - destruct H as (c & _ & ->). pose proof (ends_inj _ 34 93 (ends_cons _ _ _ (ends_one c 34)) Y). discriminate.
  - destruct w as [|x w].
    + specialize (K [] 91 (ends_one [] 91) E). discriminate.
    + destruct (forall_ends _ (x :: w) ltac:(discriminate) H) as (c & Ec & C). specialize (K _ c (ends_cons 91 _ _ Ec) E). subst c. unfold is_ws in C. lia.
  - destruct (elements_end _ H) as (c & Ec & C). specialize (K _ c (ends_cons 91 _ _ Ec) E). subst c. unfold closing, is_digit, is_ws in C. lia.
  - pose proof (ends_inj _ 125 93 (ends_cons _ _ _ (ends_one w 125)) Y). discriminate.
  - pose proof (ends_inj _ 125 93 (ends_cons _ _ _ (ends_one l' 125)) Y). discriminate.
Qed.
