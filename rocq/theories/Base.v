(** Shared vocabulary: C++ outcomes, bytes, fixed-width integers, buffers.
    Nothing here models a particular function of the repository; every model
    file ([M_*.v]) builds on these definitions. *)
From Coq Require Export ZArith List Bool Lia.
Export ListNotations.
Open Scope Z_scope.

(** Kinds of undefined behaviour (ISO C++) the models distinguish. *)
Inductive ub : Set :=
| OobRead      (* read outside the object / buffer *)
| OobWrite     (* write outside the object / buffer *)
| UninitRead   (* read of an indeterminate value *)
| BadConv      (* float -> integer conversion whose truncated value does not fit *)
| OutOfModel.  (* input for which the C library model below makes no claim *)

Inductive res (A : Type) : Type :=
| Ok (a : A)
| UB (u : ub).
Arguments Ok {A}. Arguments UB {A}.

Definition bind {A B} (r : res A) (f : A -> res B) : res B :=
  match r with Ok a => f a | UB u => UB u end.
Notation "'do' x <- r ; k" := (bind r (fun x => k))
  (at level 200, x name, r at level 100, k at level 200).
Notation "'do' ' p <- r ; k" := (bind r (fun x => let p := x in k))
  (at level 200, p strict pattern, r at level 100, k at level 200).

Definition is_ok {A} (r : res A) : bool := match r with Ok _ => true | UB _ => false end.

Definition u8  (x : Z) : Z := x mod 256.
Definition u32 (x : Z) : Z := x mod 4294967296.
Definition u64 (x : Z) : Z := x mod 18446744073709551616.
(** value of a two's-complement 32-bit pattern *)
Definition s32 (x : Z) : Z :=
  let y := x mod 4294967296 in if y <? 2147483648 then y else y - 4294967296.

Definition is_byte (b : Z) : Prop := 0 <= b < 256.
Definition bytes_ok (l : list Z) : Prop := Forall is_byte l.

(** [rd l i]: read index [i] of a buffer holding [l]. *)
Definition rd {A} (l : list A) (i : nat) : res A :=
  match nth_error l i with Some a => Ok a | None => UB OobRead end.

(** [upd l i a]: the list with index [i] replaced, or [None] out of range. *)
Fixpoint upd {A} (l : list A) (i : nat) (a : A) : option (list A) :=
  match l, i with
  | [], _ => None
  | _ :: t, O => Some (a :: t)
  | h :: t, S i => match upd t i a with Some t' => Some (h :: t') | None => None end
  end.
Definition wr {A} (l : list A) (i : nat) (a : A) : res (list A) :=
  match upd l i a with Some l' => Ok l' | None => UB OobWrite end.

Lemma upd_length {A} (l : list A) i a l' : upd l i a = Some l' -> length l' = length l.
Proof.
  revert i l'; induction l as [|h t IH]; intros [|i] l' H; simpl in H; try discriminate.
  - inversion H; reflexivity.
  - destruct (upd t i a) as [t'|] eqn:E; [|discriminate].
    inversion H; subst; simpl; f_equal; eauto.
Qed.

Lemma upd_some {A} (l : list A) i a : (i < length l)%nat -> exists l', upd l i a = Some l'.
Proof.
  revert i; induction l as [|h t IH]; intros [|i] H; simpl in *; try lia; eauto.
  destruct (IH i) as [t' E]; [lia|]. rewrite E; eauto.
Qed.

Lemma upd_none {A} (l : list A) i a : (length l <= i)%nat -> upd l i a = None.
Proof.
  revert i; induction l as [|h t IH]; intros [|i] H; simpl in *; try lia; auto.
  rewrite IH by lia; reflexivity.
Qed.

Lemma upd_nth {A} (l : list A) i a l' k d :
  upd l i a = Some l' -> nth k l' d = if Nat.eqb k i then a else nth k l d.
Proof.
  revert i l' k; induction l as [|h t IH]; intros [|i] l' k H; simpl in H; try discriminate.
  - inversion H; subst. destruct k; reflexivity.
  - destruct (upd t i a) as [t'|] eqn:E; [|discriminate].
    inversion H; subst. destruct k; simpl; [reflexivity|]. apply IH; auto.
Qed.

Lemma upd_nth_error {A} (l : list A) i a l' k :
  upd l i a = Some l' -> nth_error l' k = if Nat.eqb k i then Some a else nth_error l k.
Proof.
  revert i l' k; induction l as [|h t IH]; intros [|i] l' k H; simpl in H; try discriminate.
  - inversion H; subst. destruct k; reflexivity.
  - destruct (upd t i a) as [t'|] eqn:E; [|discriminate].
    inversion H; subst. destruct k; simpl; [reflexivity|]. apply IH; auto.
Qed.

Lemma rd_ok {A} (l : list A) i a : rd l i = Ok a <-> nth_error l i = Some a.
Proof. unfold rd. destruct (nth_error l i); split; intros H; inversion H; auto. Qed.

Lemma rd_inb {A} (l : list A) i d : (i < length l)%nat -> rd l i = Ok (nth i l d).
Proof.
  intros H. unfold rd. rewrite (nth_error_nth' l d H). reflexivity.
Qed.

Lemma rd_oob {A} (l : list A) i : (length l <= i)%nat -> rd l i = UB OobRead.
Proof.
  intros H. unfold rd. apply nth_error_None in H. rewrite H. reflexivity.
Qed.

Definition bytes_okb (l : list Z) : bool := forallb (fun b => (0 <=? b) && (b <? 256)) l.
Lemma bytes_okb_ok l : bytes_okb l = true -> bytes_ok l.
Proof.
  intros H. apply Forall_forall. intros x Hx.
  apply (proj1 (forallb_forall _ _) H) in Hx. apply andb_true_iff in Hx.
  destruct Hx as [H1 H2]. apply Z.leb_le in H1. apply Z.ltb_lt in H2. red; lia.
Qed.
