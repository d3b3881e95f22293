(** Model of the Node.js server (node-server/src/server.ts).  A JavaScript number is an element of [F N]
    (binary64 for NumB/NumSF); a string received with data.toString('latin1') is its list of bytes.
    console.log calls are left out. *)
From Verif Require Import Base Num M_Telescope.

(** A JavaScript computation returns or throws (RangeError of the Buffer functions). *)
Inductive js (A : Type) := Ret (a : A) | Throw.
Arguments Ret {A}. Arguments Throw {A}.
Definition jbind {A B} (x : js A) (f : A -> js B) : js B := match x with Ret a => f a | Throw => Throw end.
Notation "'let!' x ':=' a 'in' b" := (jbind a (fun x => b)) (at level 200, x pattern, a at level 100, b at level 200).

(** buf[i] of a Buffer; the read functions throw outside the buffer *)
Definition jrd (buf : list Z) (i : nat) : js Z := match nth_error buf i with Some b => Ret b | None => Throw end.
(** Buffer.readUInt32LE, readInt16LE, readInt32LE, readBigUInt64LE *)
Definition readUInt32LE (buf : list Z) (k : nat) : js Z :=
  let! b0 := jrd buf k in let! b1 := jrd buf (k + 1) in let! b2 := jrd buf (k + 2) in let! b3 := jrd buf (k + 3) in
  Ret (b0 + b1 * 2 ^ 8 + b2 * 2 ^ 16 + b3 * 2 ^ 24).
Definition readInt32LE (buf : list Z) (k : nat) : js Z :=
  let! w := readUInt32LE buf k in Ret (if w <? 2 ^ 31 then w else w - 2 ^ 32).
Definition readInt16LE (buf : list Z) (k : nat) : js Z :=
  let! b0 := jrd buf k in let! b1 := jrd buf (k + 1) in
  let w := b0 + b1 * 2 ^ 8 in Ret (if w <? 2 ^ 15 then w else w - 2 ^ 16).
Definition readBigUInt64LE (buf : list Z) (k : nat) : js Z :=
  let! lo := readUInt32LE buf k in let! hi := readUInt32LE buf (k + 4) in Ret (lo + hi * 2 ^ 32).

(** bytes of an integer as the write functions of Buffer store them *)
Definition bytes4 (x : Z) : list Z :=
  [Z.land x 0xFF; Z.land (Z.shiftr x 8) 0xFF; Z.land (Z.shiftr x 16) 0xFF; Z.land (Z.shiftr x 24) 0xFF].

Section Node.
Context (N : Num) (T : Trig N).
Notation F := (F N).
Notation "a +. b" := (fadd N a b) (at level 50, left associativity).
Notation "a -. b" := (fsub N a b) (at level 50, left associativity).
Notation "a *. b" := (fmul N a b) (at level 40, left associativity).
Notation "a /. b" := (fdiv N a b) (at level 40, left associativity).

(** Buffer.writeUInt32LE / writeInt32LE (lib/internal/buffer.js of Node): throw when value > max or
    value < min, then store ToUint32(value); NaN passes both comparisons and is stored as 0 *)
Definition write32 (min max : Z) (value : F) : js (list Z) :=
  if flt N (fZ N max) value || flt N value (fZ N min) then Throw
  else Ret (bytes4 (match ftrunc N value with Some z => z | None => 0 end)).
Definition writeUInt32LE := write32 0 0xffffffff.
Definition writeInt32LE := write32 (-0x80000000) 0x7fffffff.

(** server.ts:16-19, 38-39, 57-58: 0x80000000 / 12. and 0x40000000 / 90. *)
Definition ra_scale : F := fZ N 0x80000000 /. fZ N 12.
Definition dec_scale : F := fZ N 0x40000000 /. fZ N 90.

(** server.ts:31-45 [packCurrentPosition]; [now] is Date.now() (milliseconds); Date.now()*1000 is exact *)
Definition packCurrentPosition (now : Z) (position : equatorial N) : js (list Z) :=
  let! r := writeUInt32LE (ra position *. ra_scale) in
  let! d := writeInt32LE (dec position *. dec_scale) in
  Ret ([24; 0] ++ [0; 0] ++ bytes4 (now * 1000) ++ bytes4 (Z.shiftr (now * 1000) 32) ++ r ++ d ++ [0; 0; 0; 0]).

(** server.ts:7-13: struct Goto; 54-62 [unpackGoto] *)
Record goto := Goto { go_length : Z; go_type : Z; go_millis : Z; go_ra : F; go_dec : F }.
Definition unpackGoto (input : list Z) : js goto :=
  let! l := readInt16LE input 0 in let! t := readInt16LE input 2 in
  let! us := readBigUInt64LE input 4 in
  let! r := readUInt32LE input 12 in let! d := readInt32LE input 16 in
  Ret (Goto l t (us / 1000) (fZ N r /. ra_scale) (fZ N d /. dec_scale)).

(** server.ts:65-93: class Telescope *)
Record ntele := NTele { position : equatorial N; offset : equatorial N }.
Definition getCorrected (t : ntele) : equatorial N :=
  Equ (ra (position t) +. ra (offset t)) (dec (position t) +. dec (offset t)).
Definition calibrate (t : ntele) (reference : equatorial N) : ntele :=
  NTele (position t) (Equ (ra reference -. ra (position t)) (dec reference -. dec (position t))).

(** server.ts:101-139 [fromHorizontalPosition], [rad], [deg], [degToHours] *)
Definition js_rad (degrees : F) : F := degrees *. tpi T /. fZ N 180.
Definition js_deg (radians : F) : F := radians /. tpi T *. fZ N 180.
Definition js_degToHours (degrees : F) : F := degrees /. fZ N 360 *. fZ N 24.
Definition fromHorizontalPosition (t : ntele) (azimuth altitude latitude lst : F) : ntele :=
  let az := js_rad azimuth in let el := js_rad altitude in let phi := js_rad latitude in
  let sa := tsin T az in let ca := tcos T az in
  let se := tsin T el in let ce := tcos T el in
  let sp := tsin T phi in let cp := tcos T phi in
  let x := fneg N ca *. ce *. sp +. se *. cp in
  let y := fneg N sa *. ce in
  let z := ca *. ce *. cp +. se *. sp in
  let r := fsqrt N (x *. x +. y *. y) in
  let ha := if feq N r (fZ N 0) then fZ N 0 else tatan2 T y x in
  let d := js_deg (tatan2 T z r) in
  let h := js_degToHours (lst -. js_deg ha) in
  NTele (Equ (if flt N h (fZ N 0) then h +. fZ N 24 else h) d) (offset t).

(** server.ts:142-218: class NexStar.  [clock]: hours, minutes, seconds, month (1..12), day, year of
    new Date().  Patterns /^x$/ match the whole string, /^s/ a prefix. *)
Record clock := Clock { c_h : Z; c_m : Z; c_s : Z; c_mon : Z; c_day : Z; c_year : Z }.
Definition alnum (c : Z) : bool :=
  ((65 <=? c) && (c <=? 90)) || ((97 <=? c) && (c <=? 122)) || ((48 <=? c) && (c <=? 57)).
(** /^P\x01(\x10|\x11|\xb0|\xb2)\xfe\x00\x00\x00\x02$/ *)
Definition is_device (request : list Z) : bool :=
  match request with
  | [a; b; d; e; f; g; h; i] =>
      (a =? 80) && (b =? 1) && ((d =? 0x10) || (d =? 0x11) || (d =? 0xb0) || (d =? 0xb2)) && (e =? 0xfe) &&
      (f =? 0) && (g =? 0) && (h =? 0) && (i =? 2)
  | _ => false
  end.
Definition node_nexstar (now : clock) (request : list Z) : list Z :=
  match request with
  | [c] =>
      if c =? 86 then [4; 10; 35]
      else if c =? 109 then [0x0c; 35]
      else if c =? 119 then [0x30; 0x0f; 0x29; 0; 0x0a; 0x3b; 1; 0; 35]
      else if c =? 101 then [51; 52; 65; 66; 48; 53; 48; 48; 44; 49; 50; 67; 69; 48; 53; 48; 48; 35]
      else if c =? 104 then [c_h now; c_m now; c_s now; c_mon now; c_day now; c_year now - 2000; 1; 0; 35]
      else if c =? 76 then [0; 35]
      else if c =? 74 then [0; 35]
      else if c =? 116 then [1; 35]
      else if c =? 115 then [35]
      else []
  | [k; c] => if (k =? 75) && alnum c then [c; 35] else if k =? 115 then [35] else []
  | k :: _ => if is_device request then [1; 0; 35] else if k =? 115 then [35] else []
  | [] => []
  end.

(** server.ts:237-263: the 'data' handler.  The reply written to the socket (or nothing), and the telescope.
    An exception is not caught. *)
Definition on_data (now : Z) (cl : clock) (t : ntele) (data : list Z) : js (option (list Z) * ntele) :=
  let response := node_nexstar cl data in
  match response with
  | _ :: _ => Ret (Some response, t)
  | [] =>
      if 20 <=? Z.of_nat (length data) then
        let! m := unpackGoto data in
        let t := calibrate t (Equ (go_ra m) (go_dec m)) in
        let! reply := packCurrentPosition now (getCorrected t) in
        Ret (Some reply, t)
      else Ret (None, t)
  end.

(** server.ts:220-231 [onConnect]: the telescope of a new connection *)
Definition new_connection : ntele :=
  let z := fZ N 0 in
  let t := fromHorizontalPosition (NTele (Equ z z) (Equ z z)) (fq N 13554 100) (fq N 5271 100) (fZ N 48) (fq N 32166 1000) in
  NTele (position t) (Equ (fneg N (fq N 18416198265134298 1000000000000000000)) (fneg N (fq N 2824170708658258 100000000000000000))).
End Node.
