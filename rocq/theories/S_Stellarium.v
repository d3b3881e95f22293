(** Stellarium Telescope Protocol 1.0, as a byte-level specification.
    http://svn.code.sf.net/p/stellarium/code/trunk/telescope_server/stellarium_telescope_protocol.txt *)
From Verif Require Import Base.
From Coq Require Import Reals.

(** [n] bytes of [x], least significant first *)
Fixpoint le_bytes (n : nat) (x : Z) : list Z :=
  match n with O => [] | S n => x mod 256 :: le_bytes n (x / 256) end.
(** value of a little-endian byte string *)
Fixpoint le_value (l : list Z) : Z :=
  match l with [] => 0 | b :: l => b + 256 * le_value l end.

(** MessageCurrentPosition: LENGTH, TYPE, TIME, RA, DEC, STATUS *)
Definition current_position (time ra_word dec_word : Z) : list Z :=
  le_bytes 2 24 ++ le_bytes 2 0 ++ le_bytes 8 time ++ le_bytes 4 ra_word ++ le_bytes 4 dec_word
  ++ le_bytes 4 0.

(** MessageGoto: LENGTH, TYPE, TIME, RA, DEC *)
Definition goto_message (time ra_word dec_word : Z) : list Z :=
  le_bytes 2 20 ++ le_bytes 2 0 ++ le_bytes 8 time ++ le_bytes 4 ra_word ++ le_bytes 4 dec_word.

(** field of a message: [n] bytes at offset [k] *)
Definition field (k n : nat) (data : list Z) : Z := le_value (firstn n (skipn k data)).

(** one unit of an RA/DEC word is 180/2^31 degrees *)
Definition unit_deg : R := (180 / 2147483648)%R.
