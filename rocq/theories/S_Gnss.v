(** Specification of NMEA sentences, independent of the parser. *)
From Verif Require Import Base Num M_Libc.

(** decimal number fields: "", "ddd", "ddd.ddd" *)
Inductive number := NEmpty | NInt (ds : list Z) | NFrac (ds fs : list Z).
Definition text (n : number) : list Z :=
  match n with NEmpty => [] | NInt ds => ds | NFrac ds fs => ds ++ 46 :: fs end.
Definition well_formed (n : number) : Prop :=
  match n with
  | NEmpty => True
  | NInt ds => forallb is_digit ds = true /\ ds <> []
  | NFrac ds fs => forallb is_digit ds = true /\ ds <> [] /\ forallb is_digit fs = true
  end.
(** its value as the C library's float *)
Definition fvalue {N} (lc : libc N) (n : number) : F N :=
  match n with
  | NEmpty => fZ N 0
  | NInt ds => fdec lc (digits_value ds) 0
  | NFrac ds fs => fdec lc (digits_value (ds ++ fs)) (length fs)
  end.
(** non-negative integer fields *)
Definition digits (l : list Z) : Prop := forallb is_digit l = true /\ l <> [].

(** one-letter fields, possibly empty *)
Definition letter (o : option Z) : list Z := match o with Some c => [c] | None => [] end.
Definition is_letter (o : option Z) : Prop := match o with Some c => c <> 0 /\ c <> 44 /\ c <> 42 | None => True end.

Definition xor_all (l : list Z) : Z := fold_left Z.lxor l 0.

(** "$" payload "*" hh anything *)
Definition sentence (payload : list Z) (checksum : list Z) (more : list Z) : list Z :=
  36 :: payload ++ 42 :: checksum ++ more.
(** two hex digits [d1 d2] with the value [v], not followed by a third one *)
Definition hex2 (cs more : list Z) (v : Z) : Prop :=
  exists c1 c2 d1 d2, cs = [c1; c2] /\ digit_in 16 c1 = Some d1 /\ digit_in 16 c2 = Some d2 /\ v = 16 * d1 + d2 /\
    match more with [] => True | x :: _ => digit_in 16 x = None end.

Record rmc := Rmc {
  r_time : number; r_status : option Z; r_lat : number; r_ns : option Z; r_lon : number; r_ew : option Z;
  r_speed : number; r_course : number; r_date : list Z; r_rest : list Z }.
Definition comma : Z := 44.
(** GPRMC,time,A,lat,N,lon,E,speed,course,date,rest *)
Definition rmc_payload (r : rmc) : list Z :=
  [71; 80; 82; 77; 67; comma] ++ text (r_time r) ++ comma :: letter (r_status r) ++ comma :: text (r_lat r) ++ comma ::
  letter (r_ns r) ++ comma :: text (r_lon r) ++ comma :: letter (r_ew r) ++ comma :: text (r_speed r) ++ comma ::
  text (r_course r) ++ comma :: r_date r ++ comma :: r_rest r.
Definition rmc_ok (r : rmc) : Prop :=
  well_formed (r_time r) /\ is_letter (r_status r) /\ well_formed (r_lat r) /\ is_letter (r_ns r) /\ well_formed (r_lon r) /\
  is_letter (r_ew r) /\ well_formed (r_speed r) /\ well_formed (r_course r) /\ digits (r_date r) /\
  digits_value (r_date r) < 2 ^ 31 /\ ~ In 42 (r_rest r).

Record gga := Gga {
  a_time : number; a_lat : number; a_ns : option Z; a_lon : number; a_ew : option Z;
  a_quality : list Z; a_used : list Z; a_dilution : number; a_altitude : number; a_rest : list Z }.
(** GPGGA,time,lat,N,lon,E,quality,used,dilution,altitude,rest *)
Definition gga_payload (r : gga) : list Z :=
  [71; 80; 71; 71; 65; comma] ++ text (a_time r) ++ comma :: text (a_lat r) ++ comma ::
  letter (a_ns r) ++ comma :: text (a_lon r) ++ comma :: letter (a_ew r) ++ comma :: a_quality r ++ comma ::
  a_used r ++ comma :: text (a_dilution r) ++ comma :: text (a_altitude r) ++ comma :: a_rest r.
Definition gga_ok (r : gga) : Prop :=
  well_formed (a_time r) /\ well_formed (a_lat r) /\ is_letter (a_ns r) /\ well_formed (a_lon r) /\ is_letter (a_ew r) /\
  digits (a_quality r) /\ digits_value (a_quality r) < 2 ^ 31 /\ digits (a_used r) /\ digits_value (a_used r) < 2 ^ 31 /\
  well_formed (a_dilution r) /\ well_formed (a_altitude r) /\ ~ In 42 (a_rest r).

(** GPGSV,messages,number,inview,rest *)
Record gsv := Gsv { v_msgs : list Z; v_num : list Z; v_view : list Z; v_rest : list Z }.
Definition gsv_payload (r : gsv) : list Z :=
  [71; 80; 71; 83; 86; comma] ++ v_msgs r ++ comma :: v_num r ++ comma :: v_view r ++ comma :: v_rest r.
Definition gsv_ok (r : gsv) : Prop :=
  digits (v_msgs r) /\ digits (v_num r) /\ digits (v_view r) /\ digits_value (v_view r) < 2 ^ 31 /\ ~ In 42 (v_rest r).

(** the number a field denotes: digits / 10^(number of decimals); an empty field counts as 0 *)
Definition real_value (n : number) : Rdefinitions.R :=
  match n with
  | NEmpty => Rdefinitions.IZR 0
  | NInt ds => Rdefinitions.IZR (digits_value ds)
  | NFrac ds fs => Rdefinitions.Rdiv (Rdefinitions.IZR (digits_value (ds ++ fs))) (Rdefinitions.IZR (10 ^ Z.of_nat (length fs)))
  end.
(** the one-letter field is the letter [c] *)
Definition letter_is (o : option Z) (c : Z) : bool := match o with Some x => x =? c | None => false end.
