(** Model of [Checksum::verifyAmtCheckbits]. *)
From Verif Require Import Base.

(** (x >> k) & 0x01 *)
Definition bit_at (x k : Z) : Z := Z.land (Z.shiftr x k) 1.

(** C's [!x] *)
Definition c_not (x : Z) : Z := if x =? 0 then 1 else 0.

(** esp32-telescope-sync/lib/helper/src/helper.cpp:34-45, [Checksum::verifyAmtCheckbits].
    [data] is the value of the uint32_t argument. *)
Definition verifyAmtCheckbits (data : Z) : bool :=
  let even := Z.land data 0x5555 in
  let odd := Z.land data 0xAAAA in
  let even_parity := c_not
    (Z.lxor (Z.lxor (Z.lxor (Z.lxor (Z.lxor (Z.lxor (bit_at even 12) (bit_at even 10)) (bit_at even 8))
       (bit_at even 6)) (bit_at even 4)) (bit_at even 2)) (Z.land even 1)) in
  let odd_parity := c_not
    (Z.lxor (Z.lxor (Z.lxor (Z.lxor (Z.lxor (Z.lxor (bit_at odd 13) (bit_at odd 11)) (bit_at odd 9))
       (bit_at odd 7)) (bit_at odd 5)) (bit_at odd 3)) (bit_at odd 1)) in
  let K1 := bit_at data 15 in
  let K0 := bit_at data 14 in
  (even_parity =? K0) && (odd_parity =? K1).
