(** Model of class NexStar (lib/nexstar/src/nexstar.cpp). *)
From Verif Require Import Base Num M_Libc M_Linalg M_Helper M_Alignment M_Telescope M_Gnss.

Section NexStar.
Context (N : Num) (T : Trig N) (pf : platform) (oor : conv_policy).
Context (qsort : list (vpair N) -> list (vpair N)) (m9 : res (F N)) (junk : option (F N * F N)).
Notation telescope := (telescope N). Notation gnss := (gnss N).

(** "a && b" *)
Definition andr (a : res bool) (b : res bool) : res bool := do x <- a; if x : bool then b else Ok false.
(** request[i] == v *)
Definition byte_is (req : list Z) (i : nat) (v : Z) : res bool := do c <- rd req i; Ok (c =? v).
(** requestLength >= n && request[0] == letter *)
Definition cmd (req : list Z) (len n letter : Z) : res bool := andr (Ok (n <=? len)) (byte_is req 0 letter).

(** nexstar.cpp:22-24 *)
Definition is_P (req : list Z) (len : Z) : res bool :=
  andr (cmd req len 8 80) (andr (byte_is req 1 0x01)
    (andr (do c <- rd req 2; Ok ((c =? 0x10) || (c =? 0x11) || (c =? 0xb0) || (c =? 0xb2)))
    (andr (byte_is req 3 0xfe) (andr (byte_is req 4 0) (andr (byte_is req 5 0) (andr (byte_is req 6 0) (byte_is req 7 2))))))).

(** nexstar.cpp:37-45: one coordinate as degrees and minutes (float arithmetic) *)
Definition degrees_byte (v : F N) : res Z := to_u8 N oor (fabs N (ffloor N v)).
Definition minutes_byte (v : F N) : res Z :=
  to_u8 N oor (f32 N (fmul N (f32 N (fsub N (fabs N v) (fabs N (ffloor N v)))) (fZ N 60))).
Definition b2z (b : bool) : Z := if b then 1 else 0.

(** nexstar.cpp:55-56: uint32_t(v / 360.0L * 4294967296.0L); long double taken to be double (ESP32) *)
Definition word_of (v : F N) : res Z := to_u32 N oor (fmul N (fdiv N v (fZ N 360)) (fZ N 4294967296)).

(** nexstar.cpp:92-96: strncpy of at most 8 bytes into a zeroed 9-byte array, then strtoul base 16.
    strncpy reads up to and including the first NUL, at most 8 bytes. *)
Fixpoint read_upto (req : list Z) (i n : nat) : res (list Z) :=
  match n with
  | O => Ok []
  | S n => do c <- rd req i; if c =? 0 then Ok [] else do l <- read_upto req (S i) n; Ok (c :: l)
  end.
Definition field (req : list Z) (i : nat) : res Z :=
  do l <- read_upto req i 8; Ok (fst (strtoul pf 16 l)).
(** nexstar.cpp:93: (double)strtoul(..) * 360L / 4294967296.0L *)
Definition angle_of (w : Z) : F N := fdiv N (fmul N (fZ N w) (fZ N 360)) (fZ N 4294967296).

Definition lst_of (g : gnss) : F N := getLocalSiderealTimeDegrees N (g_time g) (g_longitude g).

(** nexstar.cpp:87-133, sync *)
Definition do_sync (t : telescope) (g : gnss) (req : list Z) : res telescope :=
  do w <- field req 1;
  let ra := angle_of w in
  do w <- field req 10;
  let dec := angle_of w in
  let dec := if flt N (fZ N 270) dec then fsub N dec (fZ N 360) else dec in
  do t' <- addReferencePoint N T qsort m9 junk t ra dec (g_latitude g) (lst_of g);
  Ok (Tele (t_align t') (t_orient t') true).

(** nexstar.cpp:9-143 [handleRequest].  [req]/[resp]: memory behind the pointers, [len]/[max] the sizes
    passed.  Result: return value, reply memory, telescope.  35 is '#', 44 is ','.
    The Serial.printf diagnostics only matter for the bytes they read (else branch). *)
Definition reply (t : telescope) (resp : list Z) (max : Z) (text : list Z) : res (Z * list Z * telescope) :=
  do '(n, m) <- snprintf resp max text; Ok (n, m, t).
Definition handleRequest (t : telescope) (g : gnss) (req : list Z) (len : Z) (resp : list Z) (max : Z)
  : res (Z * list Z * telescope) :=
  do b <- cmd req len 2 75;                                                       (* K *)
  if b : bool then do c <- rd req 1; reply t resp max (pc c ++ [35]) else
  do b <- cmd req len 1 86;                                                       (* V *)
  if b : bool then reply t resp max (pc 4 ++ pc 10 ++ [35]) else
  do b <- is_P req len;                                                           (* P *)
  if b : bool then reply t resp max (pc 1 ++ pc 0 ++ [35]) else
  do b <- cmd req len 1 109;                                                      (* m *)
  if b : bool then reply t resp max (pc 12 ++ [35]) else
  do b <- cmd req len 1 119;                                                      (* w *)
  if b : bool then
    do d1 <- degrees_byte (g_latitude g); do m1 <- minutes_byte (g_latitude g);
    do d2 <- degrees_byte (g_longitude g); do m2 <- minutes_byte (g_longitude g);
    reply t resp max (pc d1 ++ pc m1 ++ pc 0 ++ pc (b2z (negb (g_north g))) ++
                      pc d2 ++ pc m2 ++ pc 0 ++ pc (b2z (negb (g_east g))) ++ [35])
  else
  do b <- cmd req len 1 101;                                                      (* e *)
  if b : bool then
    do '(q, _) <- calibratedEquatorial N T t (g_latitude g) (lst_of g);
    do w1 <- word_of (ra q); do w2 <- word_of (dec q);
    reply t resp max (hex8 w1 ++ [44] ++ hex8 w2 ++ [35])
  else
  do b <- cmd req len 1 104;                                                      (* h *)
  if b : bool then
    let u := g_time g in
    reply t resp max (pc (tm_hour u) ++ pc (tm_min u) ++ pc (tm_sec u) ++ pc (tm_mon u) ++ pc (tm_mday u) ++
                      pc (tm_year u - 2000) ++ pc 0 ++ pc 0 ++ [35])
  else
  do b <- cmd req len 1 76;                                                       (* L *)
  if b : bool then reply t resp max (pc 0 ++ [35]) else
  do b <- cmd req len 1 74;                                                       (* J *)
  if b : bool then reply t resp max (pc (b2z (t_cal t)) ++ [35]) else
  do b <- cmd req len 1 116;                                                      (* t *)
  if b : bool then reply t resp max (pc 1 ++ [35]) else
  do b <- cmd req len 18 115;                                                     (* s *)
  if b : bool then do t' <- do_sync t g req; reply t' resp max [35] else
  (* nexstar.cpp:134-141: on the device the first eight bytes are printed *)
  do _ <- (if arduino pf then
             do _ <- rd req 0; do _ <- rd req 1; do _ <- rd req 2; do _ <- rd req 3;
             do _ <- rd req 4; do _ <- rd req 5; do _ <- rd req 6; rd req 7
           else Ok 0);
  Ok (0, resp, t).
End NexStar.
