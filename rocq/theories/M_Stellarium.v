(** Model of [Telescope::packPosition] and [Telescope::unpackPosition]
    (Stellarium Telescope Protocol). *)
From Verif Require Import Base Num.

(** [*writePtr++ = b] for each byte of [bs], starting at index [pos]. *)
Fixpoint put (buffer : list Z) (pos : nat) (bs : list Z) : res (list Z) :=
  match bs with
  | [] => Ok buffer
  | b :: bs' => do buffer' <- wr buffer pos b; put buffer' (S pos) bs'
  end.

(** (x >> k) & 0xFF *)
Definition byte_of (x k : Z) : Z := Z.land (Z.shiftr x k) 0xFF.

(** lib/telescope/src/telescope.h:19-20 *)
Definition MESSAGE_CURRENT_POSITION_LENGTH : Z := 24.
Definition MESSAGE_CURRENT_POSITION_TYPE : Z := 0.

Section Num.
Context (N : Num) (oor : conv_policy).

(** lib/telescope/src/telescope.cpp:211 and 217 (the expression converted to uint32_t):
    floor(0.5 + v * static_cast<double>(0x80000000) / 180.) *)
Definition encode_expr (v : F N) : F N :=
  ffloor N (fadd N (fq N 1 2) (fdiv N (fmul N v (fZ N 2147483648)) (fZ N 180))).

(** lib/telescope/src/telescope.cpp:180-230 [Telescope::packPosition].
    [buffer] is the memory behind the pointer, [bufferSize] the argument.
    Result: return value and memory afterwards.  [timestamp] is a uint64_t value. *)
Definition packPosition (ra dec : F N) (timestamp : Z) (buffer : list Z) (bufferSize : Z)
  : res (Z * list Z) :=
  if bufferSize <? 24 then Ok (0, buffer)
  else
    do buffer <- put buffer 0
      [ Z.land MESSAGE_CURRENT_POSITION_LENGTH 0xFF; byte_of MESSAGE_CURRENT_POSITION_LENGTH 8;
        Z.land MESSAGE_CURRENT_POSITION_TYPE 0xFF; byte_of MESSAGE_CURRENT_POSITION_TYPE 8;
        Z.land timestamp 0xFF; byte_of timestamp 8; byte_of timestamp 16; byte_of timestamp 24;
        byte_of timestamp 32; byte_of timestamp 40; byte_of timestamp 48; byte_of timestamp 56 ];
    do encoded <- to_u32 N oor (encode_expr ra);
    do buffer <- put buffer 12
      [ Z.land encoded 0xFF; byte_of encoded 8; byte_of encoded 16; byte_of encoded 24 ];
    do encoded <- to_u32 N oor (encode_expr dec);
    do buffer <- put buffer 16
      [ Z.land encoded 0xFF; byte_of encoded 8; byte_of encoded 16; byte_of encoded 24 ];
    do buffer <- put buffer 20 [0; 0; 0; 0];
    Ok (24, buffer).

(** lib/telescope/src/telescope.cpp:271-281: the uint32_t word, scaled to degrees:
    static_cast<double>(word) / static_cast<double>(0x80000000) * 180. *)
Definition decode_expr (word : Z) : F N :=
  fmul N (fdiv N (fZ N word) (fZ N 2147483648)) (fZ N 180).

(** The output locations *ra, *dec, *timestamp. *)
Record unpack_out := { o_ra : F N; o_dec : F N; o_ts : Z }.

(** lib/telescope/src/telescope.cpp:249-283 [Telescope::unpackPosition].
    [data] is the memory behind the pointer, [want_ts] tells whether [timestamp] is non-NULL. *)
Definition unpackPosition (want_ts : bool) (data : list Z) (dataLength : Z) (out : unpack_out)
  : res (bool * unpack_out) :=
  do d0 <- rd data 0; do d1 <- rd data 1;
  let length := u32 (d0 + Z.shiftl d1 8) in
  if (length <? 20) || (dataLength <? length) then Ok (false, out)
  else
    do d2 <- rd data 2; do d3 <- rd data 3;
    let type := u32 (d2 + Z.shiftl d3 8) in
    if negb (type =? 0) then Ok (false, out)
    else
      do ts <-
        (if want_ts then
           do t0 <- rd data 4; do t1 <- rd data 5; do t2 <- rd data 6; do t3 <- rd data 7;
           do t4 <- rd data 8; do t5 <- rd data 9; do t6 <- rd data 10; do t7 <- rd data 11;
           Ok (u64 (t0 + Z.shiftl t1 8 + Z.shiftl t2 16 + Z.shiftl t3 24 + Z.shiftl t4 32
                    + Z.shiftl t5 40 + Z.shiftl t6 48 + Z.shiftl t7 56) / 1000)
         else Ok (o_ts out));
      do r0 <- rd data 12; do r1 <- rd data 13; do r2 <- rd data 14; do r3 <- rd data 15;
      let ra := decode_expr (u32 (r0 + Z.shiftl r1 8 + Z.shiftl r2 16 + Z.shiftl r3 24)) in
      do e0 <- rd data 16; do e1 <- rd data 17; do e2 <- rd data 18; do e3 <- rd data 19;
      let dec := decode_expr (u32 (e0 + Z.shiftl e1 8 + Z.shiftl e2 16 + Z.shiftl e3 24)) in
      Ok (true, {| o_ra := ra; o_dec := dec; o_ts := ts |}).
End Num.
Arguments o_ra {N}. Arguments o_dec {N}. Arguments o_ts {N}.
Arguments Build_unpack_out {N}.
