(** Model of class GNSS (lib/gnss/src/gnss.cpp, gnss.h) over any arithmetic and platform. *)
From Verif Require Import Base Num M_Libc M_Helper.

Section Gnss.
Context (N : Num) (pf : platform) (oor : conv_policy) (lc : libc N).
Notation F := (F N).

(** gnss.h:34-48; the fields of utcTimestamp the code uses are [tm]. *)
Record gnss := Gnss {
  g_time : tm; g_valid : bool; g_satUsed : Z; g_satView : Z; g_dilution : F;
  g_latitude : F; g_longitude : F; g_north : bool; g_east : bool;
  g_speed : F; g_course : F; g_altitude : F }.

Definition tm0 : tm := Tm 0 0 0 0 0 0.
(** gnss.h:34-48 default member initialisers with gnss.cpp:7-11 constructor *)
Definition gnss_init (lat lon : F) : gnss :=
  Gnss tm0 false 0 0 (fZ N 0) lat lon true true (fZ N 0) (fZ N 0) (fZ N 0).

(** gnss.h:51-53: "$GPRMC", "$GPGGA", "$GPGSV" *)
Definition RMC_HEADER : list Z := [36; 71; 80; 82; 77; 67].
Definition GGA_HEADER : list Z := [36; 71; 80; 71; 71; 65].
Definition GSV_HEADER : list Z := [36; 71; 80; 71; 83; 86].

(** gnss.cpp:163: a char converted to uint32_t *)
Definition char_u32 (c : Z) : Z := if char_signed pf && (128 <=? c) then u32 (c - 256) else c.

(** gnss.cpp:152-171 [verifyChecksum].  startPos and endPos are uint32_t: where size_t has 64 bits,
    npos becomes 0xFFFFFFFF, which is not equal to npos. *)
Definition pos32 (o : option nat) : Z := match o with Some k => u32 (Z.of_nat k) | None => 4294967295 end.
Definition is_npos (o : option nat) : bool := match o with Some _ => false | None => negb (w64 pf) end.
Fixpoint xor_range (s : list Z) (i : nat) (n : nat) (acc : Z) : res Z :=
  match n with
  | O => Ok acc
  | S n => do c <- char_at s i; xor_range s (S i) n (Z.lxor acc (char_u32 c))
  end.
Definition verifyChecksum (s : list Z) : res bool :=
  let startPos := find_char 36 s in
  let endPos := find_char 42 s in
  if is_npos startPos || is_npos endPos then Ok false
  else
    do t <- cstr_at s (Z.to_nat (pos32 endPos + 1));
    let expected := u32 (fst (strtol pf 16 t)) in
    let from := u32 (pos32 startPos + 1) in
    do actual <- xor_range s (Z.to_nat from) (Z.to_nat (pos32 endPos - from)) 0;
    Ok (expected =? actual).

(** A pointer into sentence.c_str() is an index. *)
Definition strtof_at (s : list Z) (p : nat) : res (F * nat) :=
  do t <- cstr_at s p; let '(v, n) := strtof lc t in Ok (v, (p + n)%nat).
Definition strtol_at (s : list Z) (p : nat) : res (Z * nat) :=
  do t <- cstr_at s p; let '(v, n) := strtol pf 10 t in Ok (v, (p + n)%nat).
(** "ptr += ( *ptr == ',') ? 1 : 2" *)
Definition skip_field (s : list Z) (p : nat) : res nat :=
  do c <- char_at s p; Ok (if c =? 44 then (p + 1)%nat else (p + 2)%nat).

(** gnss.cpp:26-29 / 88-91: float arithmetic, each assignment to an int member converts *)
Definition decode_time (raw : F) (t : tm) : res tm :=
  do h <- to_i32 N oor (ffloor N (f32 N (fdiv N raw (fZ N 10000))));
  do m <- to_i32 N oor (f32 N (fsub N (ffloor N (f32 N (fdiv N raw (fZ N 100))))
                                      (f32 N (fmul N (f32 N (fZ N h)) (fZ N 100)))));
  do sec <- to_i32 N oor (f32 N (fsub N (f32 N (fsub N (ffloor N raw)
                                         (f32 N (fmul N (f32 N (fZ N h)) (fZ N 10000)))))
                                  (f32 N (fmul N (f32 N (fZ N m)) (fZ N 100)))));
  Ok (Tm sec m h (tm_mday t) (tm_mon t) (tm_year t)).

(** gnss.cpp:41 / 50 / 111 / 112: ddmm.mmm to decimal degrees *)
Definition decode_degrees (positive : bool) (raw : F) : F :=
  let d := ffloor N (f32 N (fdiv N raw (fZ N 100))) in
  f32 N (fmul N (fZ N (if positive then 1 else -1))
    (f32 N (fadd N d (f32 N (fdiv N (f32 N (fsub N raw (f32 N (fmul N d (fZ N 100))))) (fZ N 60)))))).

(** gnss.cpp:60-63; rawDate is uint32_t *)
Definition decode_date (rawDate : Z) (t : tm) : tm :=
  let mday := rawDate / 10000 in
  let mon := rawDate / 100 - mday * 100 in
  Tm (tm_sec t) (tm_min t) (tm_hour t) mday mon (rawDate - mday * 10000 - mon * 100 + 2000).

(** 1.9438444924f *)
Definition knots : F := f32 N (fq N 19438444924 10000000000).

(** gnss.cpp:13-68 [fromRMC] *)
Definition fromRMC (g : gnss) (s : list Z) : res (bool * gnss) :=
  do ok <- verifyChecksum s;
  if negb ok then Ok (false, g) else
  match find_sub RMC_HEADER s with
  | None => Ok (false, g)
  | Some pos =>
      do '(raw, p) <- strtof_at s (pos + 6 + 1);
      do time <- decode_time raw (g_time g);
      let p := (p + 1)%nat in
      do c <- char_at s p;
      let valid := c =? 65 in
      do p <- skip_field s p;
      do '(rlat, p) <- strtof_at s p;
      let p := (p + 1)%nat in
      do c <- char_at s p;
      let north := c =? 78 in
      let lat := if valid then decode_degrees north rlat else g_latitude g in
      do p <- skip_field s p;
      do '(rlon, p) <- strtof_at s p;
      let p := (p + 1)%nat in
      do c <- char_at s p;
      let east := c =? 69 in
      let lon := if valid then decode_degrees east rlon else g_longitude g in
      do p <- skip_field s p;
      do '(rspeed, p) <- strtof_at s p;
      let p := (p + 1)%nat in
      do '(course, p) <- strtof_at s p;
      let p := (p + 1)%nat in
      do '(d, p) <- strtol_at s p;
      Ok (true, Gnss (decode_date (u32 d) time) valid (g_satUsed g) (g_satView g) (g_dilution g)
                     lat lon north east (f32 N (fdiv N rspeed knots)) course (g_altitude g))
  end.

(** gnss.cpp:74-125 [fromGGA] *)
Definition fromGGA (g : gnss) (s : list Z) : res (bool * gnss) :=
  do ok <- verifyChecksum s;
  if negb ok then Ok (false, g) else
  match find_sub GGA_HEADER s with
  | None => Ok (false, g)
  | Some pos =>
      do '(raw, p) <- strtof_at s (pos + 6 + 1);
      do time <- decode_time raw (g_time g);
      let p := (p + 1)%nat in
      do '(rlat, p) <- strtof_at s p;
      let p := (p + 1)%nat in
      do c <- char_at s p;
      let north := c =? 78 in
      do p <- skip_field s p;
      do '(rlon, p) <- strtof_at s p;
      let p := (p + 1)%nat in
      do c <- char_at s p;
      let east := c =? 69 in
      do p <- skip_field s p;
      do '(q, p) <- strtol_at s p;
      let valid := 0 <? u32 q in
      let lat := if valid then decode_degrees north rlat else g_latitude g in
      let lon := if valid then decode_degrees east rlon else g_longitude g in
      let p := (p + 1)%nat in
      do '(used, p) <- strtol_at s p;
      let p := (p + 1)%nat in
      do '(dil, p) <- strtof_at s p;
      let p := (p + 1)%nat in
      do '(alt, p) <- strtof_at s p;
      Ok (true, Gnss time valid (u32 used) (g_satView g) dil lat lon north east (g_speed g) (g_course g) alt)
  end.

(** gnss.cpp:127-150 [fromGSV] *)
Definition fromGSV (g : gnss) (s : list Z) : res (bool * gnss) :=
  do ok <- verifyChecksum s;
  if negb ok then Ok (false, g) else
  match find_sub GSV_HEADER s with
  | None => Ok (false, g)
  | Some pos =>
      do '(_, p) <- strtol_at s (pos + 6 + 1);
      let p := (p + 1)%nat in
      do '(_, p) <- strtol_at s p;
      let p := (p + 1)%nat in
      do '(v, p) <- strtol_at s p;
      Ok (true, Gnss (g_time g) (g_valid g) (g_satUsed g) (u32 v) (g_dilution g) (g_latitude g) (g_longitude g)
                     (g_north g) (g_east g) (g_speed g) (g_course g) (g_altitude g))
  end.

(** gnss.cpp:173-185 [fromNMEA] *)
Definition fromNMEA (g : gnss) (s : list Z) : res (bool * gnss) :=
  match find_sub RMC_HEADER s with
  | Some _ => fromRMC g s
  | None =>
      match find_sub GGA_HEADER s with
      | Some _ => fromGGA g s
      | None => match find_sub GSV_HEADER s with Some _ => fromGSV g s | None => Ok (false, g) end
      end
  end.

(** gnss.cpp:201: rawInput.substr(startPos, endPos - startPos + 1); a negative count becomes a huge
    size_t, i.e. "to the end". *)
Definition substr (s : list Z) (startPos endPos : nat) : list Z :=
  let count := Z.of_nat endPos - Z.of_nat startPos + 1 in
  let t := skipn startPos s in
  if count <? 0 then t else firstn (Z.to_nat count) t.

(** gnss.cpp:193-205, the loop; [fuel] bounds the number of iterations ([OutOfModel] if exceeded,
    which never happens with the fuel given by fromBuffer: see the termination theorem).
    Buffers are taken to be shorter than 2^31 bytes (int32_t positions). *)
Fixpoint buffer_loop (fuel : nat) (s : list Z) (endPos : nat) (n : Z) (g : gnss) : res (Z * gnss) :=
  match fuel with
  | O => UB OutOfModel
  | S fuel =>
      match find_from 36 s endPos, find_from 10 s (endPos + 1) with
      | Some st, Some en =>
          do '(b, g) <- fromNMEA g (substr s st en);
          buffer_loop fuel s en (if b : bool then n + 1 else n) g
      | _, _ => Ok (n, g)
      end
  end.
(** gnss.cpp:187-208 [fromBuffer] *)
Definition fromBuffer (g : gnss) (s : list Z) : res (Z * gnss) := buffer_loop (length s + 2) s 0 0 g.
End Gnss.
Arguments Gnss {N}. Arguments g_time {N}. Arguments g_valid {N}. Arguments g_satUsed {N}. Arguments g_satView {N}.
Arguments g_dilution {N}. Arguments g_latitude {N}. Arguments g_longitude {N}. Arguments g_north {N}. Arguments g_east {N}.
Arguments g_speed {N}. Arguments g_course {N}. Arguments g_altitude {N}.

(** *** Tests against the repository's unit-test vectors (test/test_common/test_gnss.hpp); tests, not proofs. *)
From Coq Require Import Strings.String Strings.Ascii Floats.SpecFloat.
Definition bytes_of (s : string) : list Z := map (fun c => Z.of_N (N_of_ascii c)) (list_ascii_of_string s).
Definition lcSF : libc NumSF := dec_libc fdec_SF.
Definition g0 : gnss NumSF := gnss_init NumSF (sf_ofZ 48) (sf_ofZ 11).
(** plain data: accepted, time, flags, satellites; positions and altitude in thousandths *)
Definition milli_of (x : spec_float) : option Z := sf_trunc (SFmul 53 1024 x (sf_ofZ 1000)).
Definition show_gnss (r : res (bool * gnss NumSF)) :=
  match r with
  | Ok (b, g) => let t := g_time g in
      Some (b, (tm_hour t, tm_min t, tm_sec t), (tm_year t, tm_mon t, tm_mday t), (g_valid g, g_north g, g_east g),
            (g_satUsed g, g_satView g), (milli_of (g_latitude g), milli_of (g_longitude g), milli_of (g_speed g), milli_of (g_course g), milli_of (g_altitude g)))
  | UB _ => None
  end.
Definition rmcA := bytes_of "$GPRMC,083055.00,A,4815.69961,N,01059.02625,E,2.158,,291221,,,A*79".
Definition rmcB := bytes_of "$GPRMC,081836,A,3751.65,S,14507.36,E,000.0,360.0,130998,011.3,E*62".
Definition ggaB := bytes_of "$GPGGA,092204.999,4250.5589,S,14718.5084,E,1,04,24.4,19.7,M,,,,0000*1F".
Example gnss_tests : map (fun s => show_gnss (fromNMEA NumSF esp32 strict_iso lcSF g0 s)) [rmcA; rmcB; ggaB] =
  [Some (true, (8, 30, 55), (2021, 12, 29), (true, true, true), (0, 0), (Some 48261, Some 10983, Some 1110, Some 0, Some 0));
   Some (true, (8, 18, 36), (2098, 9, 13), (true, false, true), (0, 0), (Some (-37860), Some 145122, Some 0, Some 360000, Some 0));
   Some (true, (9, 22, 5), (0, 0, 0), (true, false, true), (4, 0), (Some (-42842), Some 147308, Some 0, Some 0, Some 19700))].
Proof. vm_compute. reflexivity. Qed.
Example checksum_tests :
  map (fun s => verifyChecksum esp32 (bytes_of s))
    ["$GPGSV,3,1,12,02,11,234,15,07,54,060,14,08,03,065,,09,20,099,23*7C"; "$GPGGA,165011.00,,,,,0,00,99.99,,,,,,*64";
     "$GPGGA,165011.00,,,,,0,00,99.99,,,,,,*3"]%string = [Ok true; Ok true; Ok false].
Proof. vm_compute. reflexivity. Qed.
Definition lf : string := String (ascii_of_nat 10) "".
Definition cr : string := String (ascii_of_nat 13) "".
Example buffer_tests :
  map (fun s => match fromBuffer NumSF esp32 strict_iso lcSF g0 (bytes_of s) with Ok (n, _) => Some n | UB _ => None end)
    ["$GPRMC,083055.00,A,4815.69961,N,01059.02625,E,2.158,,291221,,,A*79" ++ cr ++ lf;
     "$GPRMC,083055.00,A,4815.69961,N,01059.02625,E,2.158,,291221,,,A*79" ++ cr;
     "$GPRMC,083055.00,A,4815.69961,N,01059.02625,E,2.158,,291221,,,A*79" ++ cr ++ lf ++ "$GPVTG,,T,,M,2.158,N,3.997,K,A*29" ++ cr ++ lf
      ++ "$GPGGA,083055.00,4815.69961,N,01059.02625,E,1,04,7.80,485.8,M,46.8,M,,*50" ++ cr ++ lf ++ "$GPGSA,A,3,02,07,30,06,,,,,,,,,14.68,7"]%string
  = [Some 1; Some 0; Some 2].
Proof. vm_compute. reflexivity. Qed.
