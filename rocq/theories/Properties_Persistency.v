(** C59, C83: calibration data in flash. *)
From Verif Require Import Base M_Persistency.
From Coq Require Import Strings.String.
Notation length := List.length.

Lemma Ok_pair {A B} (a a' : A) (b b' : B) : Ok (a, b) = Ok (a', b') -> a = a' /\ b = b'.
Proof. intros E. injection E as -> ->. auto. Qed.
Lemma set_same f n c : set_file f n c n = Some c.
Proof. unfold set_file. rewrite String.eqb_refl. reflexivity. Qed.
Lemma set_other f n c m : m <> n -> set_file f n c m = f m.
Proof. intros H. unfold set_file. destruct (String.eqb_spec m n); [contradiction|reflexivity]. Qed.
Lemma last_app' {A} (l : list A) x d : List.last (l ++ [x]) d = x.
Proof. induction l as [|a l IH]; [reflexivity|]. cbn [app]. destruct l; [reflexivity|]. exact IH. Qed.
Lemma final_map (f d : fs) (g : nat -> fs) n : final (f :: map g (seq 0 (S n))) d = g n.
Proof. unfold final. rewrite seq_S, map_app. cbn [map Nat.add]. change (f :: map g (seq 0 n) ++ [g n]) with ((f :: map g (seq 0 n)) ++ [g n]). apply last_app'. Qed.

(** What a successful write stored is what a successful read of the same length returns, other bytes of the
    destination untouched. *)
Theorem C59_read_after_write : forall f data n name opened put states dest,
  writeBinaryData f data n name opened put = Ok (true, states) -> (n <= length dest)%nat -> forall got, (n <= got)%nat ->
  readBinaryData (final states f) dest n name got = Ok (true, firstn n data ++ skipn n dest).
Proof.
  intros f data n name opened put states dest E Hd got Hg. unfold writeBinaryData in E.
  destruct opened; [|discriminate]. destruct (Nat.leb_spec n (length data)) as [Hn|]; [|discriminate].
  apply Ok_pair in E. destruct E as [E1 <-]. apply Nat.eqb_eq in E1. unfold readBinaryData. rewrite final_map, E1, set_same.
  rewrite firstn_length_le by exact Hn. rewrite Nat.leb_refl. rewrite Nat.min_r by lia. rewrite Nat.eqb_refl.
  rewrite firstn_firstn, Nat.min_id. unfold copy_to. rewrite firstn_length_le by exact Hn.
  destruct (Nat.leb_spec n (length dest)); [reflexivity|lia].
Qed.
(** A read that reports success returned exactly the first n bytes of the file; a missing or shorter file or an
    incomplete transfer is reported as failure. *)
Theorem C59_read_result : forall f dest n name got, (n <= length dest)%nat ->
  exists ok dest', readBinaryData f dest n name got = Ok (ok, dest') /\
    (ok = true <-> (n <= got)%nat /\ exists content, f name = Some content /\ (n <= length content)%nat) /\
    (ok = true -> exists content, f name = Some content /\ dest' = firstn n content ++ skipn n dest).
Proof.
  intros f dest n name got Hd. unfold readBinaryData. destruct (f name) as [c|].
  - destruct (Nat.leb_spec n (length c)) as [Hn|Hn].
    + assert (L : length (firstn (Nat.min got n) c) = Nat.min got n) by (rewrite firstn_length; lia).
      unfold copy_to. rewrite L. destruct (Nat.leb_spec (Nat.min got n) (length dest)); [|lia]. cbn [bind].
      do 2 eexists. split; [reflexivity|]. split.
      * split.
        -- intros E. apply Nat.eqb_eq in E. split; [lia|]. exists c. auto.
        -- intros [Hg _]. apply Nat.eqb_eq. lia.
      * intros E. apply Nat.eqb_eq in E. exists c. split; [reflexivity|]. rewrite E. reflexivity.
    + exists false, dest. split; [reflexivity|]. split; [|discriminate]. split; [discriminate|]. intros (_ & c' & E & Hc). injection E as <-. lia.
  - exists false, dest. split; [reflexivity|]. split; [|discriminate]. split; [discriminate|]. intros (_ & c' & E & _). discriminate.
Qed.
(** Writing one file never changes another, at any point of time. *)
Theorem C59_other_files_untouched : forall f data n name opened put ok states s other,
  writeBinaryData f data n name opened put = Ok (ok, states) -> In s states -> other <> name -> s other = f other.
Proof.
  intros f data n name opened put ok states s other E Hi Ho. unfold writeBinaryData in E.
  destruct opened; [destruct (n <=? length data)%nat; [|discriminate]|]; apply Ok_pair in E; destruct E as [_ <-].
  - destruct Hi as [<-|Hi]; [reflexivity|]. apply in_map_iff in Hi. destruct Hi as (k & <- & _). apply set_other. exact Ho.
  - destruct Hi as [<-|[]]. reflexivity.
Qed.
(** Crash at any point of a write (or a write that fails): a later read of n bytes never reports success with
    anything but the complete old or the complete new contents. *)
Theorem C59_crash_never_mixes : forall f data n name opened put ok states s dest got dest',
  writeBinaryData f data n name opened put = Ok (ok, states) -> In s states -> (n <= length dest)%nat ->
  readBinaryData s dest n name got = Ok (true, dest') ->
  dest' = firstn n data ++ skipn n dest \/ exists old, f name = Some old /\ dest' = firstn n old ++ skipn n dest.
Proof.
  intros f data n name opened put ok states s dest got dest' E Hi Hd Er.
  destruct (C59_read_result s dest n name got Hd) as (ok' & d' & E' & H1 & H2). rewrite Er in E'. injection E' as <- <-.
  destruct (proj1 H1 eq_refl) as (Hg & c & Ec & Hc). destruct (H2 eq_refl) as (c' & Ec' & ->). rewrite Ec in Ec'. injection Ec' as <-.
  unfold writeBinaryData in E. destruct opened; [destruct (Nat.leb_spec n (length data)); [|discriminate]|]; apply Ok_pair in E; destruct E as [_ <-].
  - destruct Hi as [<-|Hi]; [right; exists c; auto|]. apply in_map_iff in Hi. destruct Hi as (k & <- & Hk). rewrite set_same in Ec. injection Ec as <-.
    left. f_equal. apply in_seq in Hk. rewrite firstn_length in Hc. rewrite firstn_firstn. f_equal. lia.
  - destruct Hi as [<-|[]]. right. exists c. auto.
Qed.
(** C83: but the old data is gone as soon as the file is opened: after a crash in the middle of the write, or a
    write that fails because the flash is full, nothing can be read back. *)
Theorem C83_failed_write_loses_old_data_refuted : forall f old data n name put, f name = Some old -> (0 < n <= length data)%nat -> (n <= length old)%nat ->
  (put < n)%nat ->
  exists states, writeBinaryData f data n name true put = Ok (false, states) /\
    forall dest got dest' ok, (n <= length dest)%nat -> readBinaryData (final states f) dest n name got = Ok (ok, dest') -> ok = false.
Proof.
  intros f old data n name put Ef Hn Ho Hp. unfold writeBinaryData. destruct (Nat.leb_spec n (length data)); [|lia].
  rewrite Nat.min_l by lia. destruct (Nat.eqb_spec put n); [lia|]. eexists. split; [reflexivity|].
  intros dest got dest' ok Hd E. rewrite final_map in E. unfold readBinaryData in E. rewrite set_same in E.
  destruct (Nat.leb_spec n (length (firstn put data))) as [Hx|Hx]; [|congruence]. rewrite firstn_length in Hx. lia.
Qed.
Theorem C83_crash_loses_old_data_refuted : exists f old data states s, f "cal"%string = Some old /\
  writeBinaryData f data 4 "cal" true 4 = Ok (true, states) /\ In s states /\
  readBinaryData f (repeat 0 4) 4 "cal" 4 = Ok (true, old) /\ readBinaryData s (repeat 0 4) 4 "cal" 4 = Ok (false, repeat 0 4).
Proof.
  exists (set_file (fun _ => None) "cal" [1; 2; 3; 4]), [1; 2; 3; 4], [5; 6; 7; 8]. do 2 eexists.
  split; [reflexivity|]. split; [reflexivity|]. split; [right; left; reflexivity|]. split; reflexivity.
Qed.
(** Kept: every state but those of the interrupted write still has the old data. *)
Theorem C83_unopened_write_keeps_data_partial : forall f data n name put ok states s,
  writeBinaryData f data n name false put = Ok (ok, states) -> In s states -> ok = false /\ s name = f name.
Proof. intros f data n name put ok states s E Hi. injection E as <- <-. destruct Hi as [<-|[]]. auto. Qed.
Example C59_nonvacuous : exists states, writeBinaryData (fun _ => None) [1; 2; 3] 3 "cal" true 3 = Ok (true, states).
Proof. eexists. reflexivity. Qed.
Print Assumptions C59_read_after_write. Print Assumptions C59_crash_never_mixes.
