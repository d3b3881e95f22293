(** Specification vocabulary for the AMT22 check bits (independent of the code):
    a 16-bit frame carries a 14-bit position in bits 0..13 and two check bits in
    bits 14 (even group) and 15 (odd group); a frame is good when each group has
    an odd number of ones. *)
From Verif Require Import Base.

Definition even_group : list Z := [0; 2; 4; 6; 8; 10; 12; 14].
Definition odd_group  : list Z := [1; 3; 5; 7; 9; 11; 13; 15].

(** number of bit positions of [g] that are set in [w] *)
Definition ones (g : list Z) (w : Z) : nat :=
  length (filter (fun k => Z.testbit w k) g).

Definition good_frame (w : Z) : Prop :=
  Nat.odd (ones even_group w) = true /\ Nat.odd (ones odd_group w) = true.

(** [flips g e]: how many positions of group [g] the error pattern [e] inverts *)
Definition corrupt (w e : Z) : Z := Z.lxor w e.
