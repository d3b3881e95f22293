(** Small specification: numbers as text and the telemetry messages (independent of the model's printing). *)
From Verif Require Import Base.
From Coq Require Import Strings.String.
Notation length := List.length.

(** the number a string of digits stands for *)
Definition digit (c : Z) : Prop := 48 <= c <= 57.
Fixpoint number (acc : Z) (t : list Z) : Z := match t with [] => acc | c :: t => number (10 * acc + (c - 48)) t end.
(** [t] is the decimal notation of [n], without superfluous zeros *)
Definition decimal (n : Z) (t : list Z) : Prop :=
  t <> [] /\ Forall digit t /\ number 0 t = n /\ ((1 < length t)%nat -> hd 0 t <> 48).
(** ... filled up with zeros to [w] digits *)
Definition padded (w : nat) (n : Z) (t : list Z) : Prop := exists d, decimal n d /\ t = repeat 48 (w - length d) ++ d.
(** ... with a minus sign if negative *)
Definition signed (n : Z) (t : list Z) : Prop := (0 <= n /\ decimal n t) \/ (n < 0 /\ exists d, decimal (- n) d /\ t = 45 :: d).
(** how an int prints as unsigned *)
Definition unsigned (n : Z) : Z := n mod 2 ^ 32.

Lemma number_app a : forall acc b, number acc (a ++ b) = number (number acc a) b.
Proof. induction a as [|c a IH]; intros acc b; [reflexivity|]. cbn [number app]. apply IH. Qed.
Lemma number_repeat_0 k : forall d, number 0 (repeat 48 k ++ d) = number 0 d.
Proof. induction k as [|k IH]; intros d; [reflexivity|]. cbn [repeat app number]. apply IH. Qed.
(** the notation determines the number *)
Lemma decimal_unique n m t : decimal n t -> decimal m t -> n = m.
Proof. intros (_ & _ & H & _) (_ & _ & H' & _). congruence. Qed.
Lemma padded_number w n t : padded w n t -> number 0 t = n /\ Forall digit t /\ (w <= length t)%nat.
Proof.
  intros (d & (Hd & Hf & Hn & _) & ->). split; [rewrite number_repeat_0; exact Hn|]. split.
  - apply Forall_app. split; [|exact Hf]. apply Forall_forall. intros c Hc. apply repeat_spec in Hc. subst c. unfold digit. lia.
  - rewrite app_length, repeat_length. lia.
Qed.
