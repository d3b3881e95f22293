(** C94: the Bluetooth callback interrupting the main loop. *)
From Verif Require Import Base Num M_Libc M_Linalg M_Helper M_Alignment M_Telescope M_Gnss M_NexStar S_NexStar M_Main P_NexStar Properties_NexStar M_Race.
From Coq Require Import Permutation.

Section Race.
Context (N : Num) (T : Trig N) (pf : platform) (oor : conv_policy).
Context (qsort : list (vpair N) -> list (vpair N)) (m9 : res (F N)) (junk : option (F N * F N)).
Notation interleaved := (interleaved N T pf oor qsort m9 junk).
Notation start := (start N).

Lemma answers_short t g req text : @answers N t g req text -> (0 < length text <= 9)%nat.
Proof. destruct 1; cbn [length]; lia. Qed.
Lemma firstn_written text tx : firstn (Z.to_nat (Z.of_nat (length text))) (written text tx) = text.
Proof. rewrite Nat2Z.id. unfold written. rewrite firstn_app, firstn_all, Nat.sub_diag. cbn [firstn]. apply app_nil_r. Qed.
Lemma written_length text tx : (length text < length tx)%nat -> length (written text tx) = length tx.
Proof. intros H. unfold written. rewrite app_length. cbn [length]. rewrite skipn_length. lia. Qed.
Lemma fill_answers b s text : answers (r_tel b) (r_gnss b) (r_req b s) text -> bytes_ok (r_req b s) -> length (r_tx b) = 256%nat ->
  fill N T pf oor qsort m9 junk b s = Ok (Both N (r_tel b) (r_gnss b) (written text (r_tx b)) (r_req b) (set_len (r_len b) s (Z.of_nat (length text))) (r_sent b)).
Proof.
  intros Ha Hb L. unfold fill. pose proof (answers_short _ _ _ _ Ha).
  pose proof (C08_documented_reply N T pf oor qsort m9 junk (r_tel b) (r_gnss b) (r_req b s) [] (r_tx b) 256 text Ha Hb ltac:(lia) ltac:(lia)) as E.
  rewrite app_nil_r in E. rewrite E. reflexivity.
Qed.

Lemma B86 : bytes_ok [86]. Proof. apply Forall_cons; [unfold is_byte; lia|constructor]. Qed.
Lemma B75 : bytes_ok [75; 65]. Proof. apply Forall_cons; [unfold is_byte; lia|apply Forall_cons; [unfold is_byte; lia|constructor]]. Qed.
(** The TCP client asks 'K' x (expecting x#), the Bluetooth client asks 'V': if the callback runs between filling the
    buffer and sending it, the TCP client receives the beginning of the answer to 'V'. *)
Theorem C94_reply_swapped_refuted : forall tel g tx x rest, length tx = 256%nat -> 0 <= x < 256 -> bytes_ok rest ->
  exists fin, interleaved (start tel g tx (75 :: x :: rest) [86]) [Tcp; Bt; Tcp; Bt] = Ok fin /\
    r_sent fin = [TcpOut [4; 10]; BtOut [4; 10; 35]].
Proof.
  intros tel g tx x rest L Hx Hr. eexists. cbn [M_Race.interleaved]. unfold advance at 1. cbn [M_Race.start r_len].
  rewrite (fill_answers _ Tcp [x; 35]); [|apply A_echo|change (bytes_ok (75 :: x :: rest)); apply Forall_cons; [unfold is_byte; lia|apply Forall_cons; [unfold is_byte; lia|exact Hr]]|exact L].
  cbn [bind]. unfold advance at 1. cbn [r_len set_len].
  rewrite (fill_answers _ Bt [4; 10; 35]); [|apply A_version|exact B86|cbn [r_tx]; rewrite written_length; [exact L|change (2 < length tx)%nat; lia]].
  cbn [bind]. split; reflexivity.
Qed.
(** Of the six schedules of two statements on each side, exactly the two without overlap give each client its own answer for all
    requests and states. *)
Definition each_gets_its_own (schedule : list side) : Prop :=
  forall tel g tx rx req a b, length tx = 256%nat -> bytes_ok rx -> bytes_ok req -> answers tel g rx a -> answers tel g req b ->
    exists fin, interleaved (start tel g tx rx req) schedule = Ok fin /\ Permutation (r_sent fin) [TcpOut a; BtOut b].
Theorem C94_only_without_overlap_partial : forall schedule, Permutation schedule [Tcp; Tcp; Bt; Bt] ->
  (each_gets_its_own schedule <-> schedule = [Tcp; Tcp; Bt; Bt] \/ schedule = [Bt; Bt; Tcp; Tcp]).
Proof.
  intros sch P. split.
  - intros H.
    pose (tel := tele_init N (fZ N 0) (fZ N 0)). pose (g := gnss_init N (fZ N 0) (fZ N 0)). pose (tx := repeat 0 256).
    specialize (H tel g tx [75; 65] [86] [65; 35] [4; 10; 35] eq_refl B75 B86 (A_echo _ _ 65 []) (A_version _ _ [])).
    destruct H as (fin & E & Q).
    assert (L : length sch = 4%nat) by (rewrite (Permutation_length P); reflexivity).
    destruct sch as [|a [|b [|c [|d [|? ?]]]]]; try discriminate.
    assert (W : forall t l, length l = 256%nat -> (length t <= 9)%nat -> length (written t l) = 256%nat) by (intros; rewrite written_length; lia).
    assert (L0 : length tx = 256%nat) by reflexivity.
    cbn [M_Race.interleaved] in E.
    assert (F1 : forall b0, r_tel b0 = tel -> r_gnss b0 = g -> r_req b0 Tcp = [75; 65] -> length (r_tx b0) = 256%nat ->
      fill N T pf oor qsort m9 junk b0 Tcp = Ok (Both N (r_tel b0) (r_gnss b0) (written [65; 35] (r_tx b0)) (r_req b0) (set_len (r_len b0) Tcp 2) (r_sent b0))).
    { intros b0 H1 H2 H3 H4. apply fill_answers; [rewrite H1, H2, H3; apply A_echo|rewrite H3; exact B75|exact H4]. }
    assert (F2 : forall b0, r_tel b0 = tel -> r_gnss b0 = g -> r_req b0 Bt = [86] -> length (r_tx b0) = 256%nat ->
      fill N T pf oor qsort m9 junk b0 Bt = Ok (Both N (r_tel b0) (r_gnss b0) (written [4; 10; 35] (r_tx b0)) (r_req b0) (set_len (r_len b0) Bt 3) (r_sent b0))).
    { intros b0 H1 H2 H3 H4. apply fill_answers; [rewrite H1, H2, H3; apply A_version|rewrite H3; exact B86|exact H4]. }
    assert (In1 : In (TcpOut [65; 35]) (r_sent fin)) by (eapply Permutation_in; [apply Permutation_sym; exact Q|left; reflexivity]).
    assert (In2 : In (BtOut [4; 10; 35]) (r_sent fin)) by (eapply Permutation_in; [apply Permutation_sym; exact Q|right; left; reflexivity]).
    clear Q.
    assert (C : forall s, count_occ (fun x y : side => ltac:(decide equality) : {x = y} + {x <> y}) [a; b; c; d] s = 2%nat).
    { intros s. pose proof (proj1 (Permutation_count_occ (fun x y : side => ltac:(decide equality) : {x = y} + {x <> y}) _ _) P s) as K. rewrite K. destruct s; reflexivity. }
    destruct a, b, c, d; try (specialize (C Tcp); discriminate C); try (left; reflexivity); try (right; reflexivity); exfalso;
      unfold advance in E; cbn [M_Race.start r_len] in E;
      repeat (first [rewrite F1 in E by (first [reflexivity|cbn [M_Race.start r_tx]; repeat apply W; first [exact L0|cbn [length]; lia]])
                    |rewrite F2 in E by (first [reflexivity|cbn [M_Race.start r_tx]; repeat apply W; first [exact L0|cbn [length]; lia]])]; cbn [bind set_len r_len] in E);
      unfold send in E; cbn in E; apply (f_equal (fun r => match r with Ok x => r_sent x | UB _ => [] end)) in E; cbn in E; rewrite <- E in In1, In2; cbn in In1, In2; intuition discriminate.
  - intros [-> | ->] tel g tx rx req a b L H1 H2 Ha Hb; eexists; cbn [M_Race.interleaved]; unfold advance at 1; cbn [M_Race.start r_len].
    + rewrite (fill_answers _ Tcp a); [|exact Ha|exact H1|exact L]. cbn [bind]. unfold advance at 1. cbn [r_len set_len bind].
      unfold send at 1. cbn [r_tx r_tel r_gnss r_req r_len r_sent]. rewrite firstn_written. pose proof (answers_short _ _ _ _ Ha). pose proof (answers_short _ _ _ _ Hb).
      replace (0 <? Z.of_nat (length a)) with true by (symmetry; apply Z.ltb_lt; lia). unfold advance at 1. cbn [r_len set_len].
      rewrite (fill_answers _ Bt b); [|exact Hb|exact H2|change (length (written a tx) = 256%nat); rewrite written_length; lia]. cbn [bind]. unfold advance at 1. cbn [r_len set_len bind].
      split; [reflexivity|]. unfold send. cbn [r_tx r_sent]. rewrite firstn_written. replace (0 <? Z.of_nat (length b)) with true by (symmetry; apply Z.ltb_lt; lia). cbn [r_sent app]. apply Permutation_refl.
    + rewrite (fill_answers _ Bt b); [|exact Hb|exact H2|exact L]. cbn [bind]. unfold advance at 1. cbn [r_len set_len bind].
      unfold send at 1. cbn [r_tx r_tel r_gnss r_req r_len r_sent]. rewrite firstn_written. pose proof (answers_short _ _ _ _ Ha). pose proof (answers_short _ _ _ _ Hb).
      replace (0 <? Z.of_nat (length b)) with true by (symmetry; apply Z.ltb_lt; lia). unfold advance at 1. cbn [r_len set_len].
      rewrite (fill_answers _ Tcp a); [|exact Ha|exact H1|change (length (written b tx) = 256%nat); rewrite written_length; lia]. cbn [bind]. unfold advance at 1. cbn [r_len set_len bind].
      split; [reflexivity|]. unfold send. cbn [r_tx r_sent]. rewrite firstn_written. replace (0 <? Z.of_nat (length a)) with true by (symmetry; apply Z.ltb_lt; lia). cbn [r_sent app]. apply perm_swap.
Qed.
End Race.
Print Assumptions C94_reply_swapped_refuted. Print Assumptions C94_only_without_overlap_partial.
