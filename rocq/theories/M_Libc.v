(** The parts of the C and C++ libraries the firmware uses: std::string searches, strtol/strtoul,
    strtof, snprintf.  These are models of the C17 / C++ standard library functions, not of repository code. *)
From Verif Require Import Base Num.

(** What depends on the platform: the firmware runs on an ESP32 (32-bit, unsigned char, ARDUINO), its
    unit tests on a 64-bit PC (signed char). *)
Record platform := Platform {
  w64 : bool;          (* size_t and long have 64 bits (else 32) *)
  char_signed : bool;  (* plain char is signed *)
  arduino : bool }.    (* the ARDUINO macro is defined *)
Definition esp32 : platform := Platform false false true.
Definition pc64 : platform := Platform true true false.

(** ** Strings: a std::string is the list of its bytes; c_str() is the string followed by one NUL. *)
Fixpoint find_char (c : Z) (s : list Z) : option nat :=
  match s with
  | [] => None
  | x :: s => if x =? c then Some O else option_map S (find_char c s)
  end.
(** s.find(c, pos) *)
Definition find_from (c : Z) (s : list Z) (pos : nat) : option nat :=
  option_map (Nat.add pos) (find_char c (skipn pos s)).

Fixpoint is_prefix (p s : list Z) : bool :=
  match p, s with
  | [], _ => true
  | x :: p, y :: s => (x =? y) && is_prefix p s
  | _, _ => false
  end.
(** s.find(sub) for a non-empty sub *)
Fixpoint find_sub (p s : list Z) : option nat :=
  if is_prefix p s then Some O
  else match s with [] => None | _ :: s => option_map S (find_sub p s) end.

(** the C string that starts at the beginning of [l] *)
Fixpoint until_nul (l : list Z) : list Z :=
  match l with
  | [] => []
  | x :: l => if x =? 0 then [] else x :: until_nul l
  end.
(** the C string at c_str() + p; behind the terminating NUL nothing may be read *)
Definition cstr_at (s : list Z) (p : nat) : res (list Z) :=
  if (p <=? length s)%nat then Ok (until_nul (skipn p s)) else UB OobRead.
(** the char at c_str() + p *)
Definition char_at (s : list Z) (p : nat) : res Z := rd (s ++ [0]) p.

(** ** strtol, strtoul (C17 7.22.1.4) *)
Definition is_space (c : Z) : bool := (c =? 32) || ((9 <=? c) && (c <=? 13)).
Definition digit_of (c : Z) : option Z :=
  if (48 <=? c) && (c <=? 57) then Some (c - 48)
  else if (65 <=? c) && (c <=? 90) then Some (c - 55)
  else if (97 <=? c) && (c <=? 122) then Some (c - 87)
  else None.
Definition digit_in (base : Z) (c : Z) : option Z :=
  match digit_of c with Some d => if d <? base then Some d else None | None => None end.

Fixpoint take_ws (l : list Z) : nat * list Z :=
  match l with
  | x :: l' => if is_space x then let '(n, r) := take_ws l' in (S n, r) else (O, l)
  | [] => (O, [])
  end.
(** value and number of leading digits *)
Fixpoint take_digits (base acc : Z) (l : list Z) : Z * nat :=
  match l with
  | x :: l' => match digit_in base x with
               | Some d => let '(v, n) := take_digits base (acc * base + d) l' in (v, S n)
               | None => (acc, O)
               end
  | [] => (acc, O)
  end.
Definition take_sign (l : list Z) : bool * nat * list Z :=
  match l with
  | 45 :: l => (true, 1%nat, l)
  | 43 :: l => (false, 1%nat, l)
  | _ => (false, O, l)
  end.
(** optional 0x before a hex digit *)
Definition take_0x (base : Z) (l : list Z) : nat * list Z :=
  match l with
  | 48 :: x :: d :: l' =>
      if (base =? 16) && ((x =? 120) || (x =? 88)) && (match digit_in 16 d with Some _ => true | None => false end)
      then (2%nat, d :: l') else (O, l)
  | _ => (O, l)
  end.
(** (sign, magnitude, consumed bytes); consumed = 0 if there is no number *)
Definition strto_int (base : Z) (l : list Z) : bool * Z * nat :=
  let '(n0, l) := take_ws l in
  let '(neg, n1, l) := take_sign l in
  let '(n2, l) := take_0x base l in
  let '(v, n3) := take_digits base 0 l in
  match n3 with O => (false, 0, O) | _ => (neg, v, n0 + n1 + n2 + n3)%nat end.

Definition long_max (p : platform) : Z := if w64 p then 2 ^ 63 - 1 else 2 ^ 31 - 1.
Definition ulong_mod (p : platform) : Z := if w64 p then 2 ^ 64 else 2 ^ 32.
Definition strtol (p : platform) (base : Z) (l : list Z) : Z * nat :=
  let '(neg, v, n) := strto_int base l in
  (if neg then Z.max (- v) (- long_max p - 1) else Z.min v (long_max p), n).
Definition strtoul (p : platform) (base : Z) (l : list Z) : Z * nat :=
  let '(neg, v, n) := strto_int base l in
  (if ulong_mod p <=? v then ulong_mod p - 1 else if neg then (- v) mod ulong_mod p else v, n).

(** ** strtof: an unspecified function of the C string; value and consumed bytes *)
Record libc (N : Num) := Libc { strtof : list Z -> F N * nat; fdec : Z -> nat -> F N }.
Arguments strtof {N}. Arguments fdec {N}.

Definition is_digit (c : Z) : bool := (48 <=? c) && (c <=? 57).
Definition digits_value (l : list Z) : Z := fold_left (fun acc c => acc * 10 + (c - 48)) l 0.

(** It never reads beyond the string and never consumes ',' or '*' (true in the C locale for every
    accepted form, including hexadecimal, "inf" and "nan(...)"). *)
Definition strtof_bounded {N} (c : libc N) : Prop :=
  forall l, (snd (strtof c l) <= length l)%nat /\
    forall x, In x (firstn (snd (strtof c l)) l) -> x <> 44 /\ x <> 42.
(** Decimal numbers "ddd" and "ddd.ddd" followed by ',' or '*' are read as the float [fdec m k] nearest
    to m/10^k; an empty field gives 0 and consumes nothing. *)
Definition strtof_decimal {N} (c : libc N) : Prop :=
  (forall ds rest x, forallb is_digit ds = true -> ds <> [] -> (x = 44 \/ x = 42) ->
     strtof c (ds ++ x :: rest) = (fdec c (digits_value ds) 0, length ds)) /\
  (forall ds fs rest x, forallb is_digit ds = true -> ds <> [] -> forallb is_digit fs = true -> (x = 44 \/ x = 42) ->
     strtof c (ds ++ 46 :: fs ++ x :: rest) =
       (fdec c (digits_value (ds ++ fs)) (length fs), (length ds + 1 + length fs)%nat)) /\
  (forall rest x, (x = 44 \/ x = 42) -> strtof c (x :: rest) = (fZ N 0, O)).

(** A concrete strtof for sign-less decimal numbers without exponent. *)
Fixpoint take_dec (l : list Z) : list Z * list Z :=
  match l with
  | x :: l' => if is_digit x then let '(d, r) := take_dec l' in (x :: d, r) else ([], l)
  | [] => ([], [])
  end.
Definition dec_strtof {N} (fdec : Z -> nat -> F N) (l : list Z) : F N * nat :=
  let '(n0, l) := take_ws l in
  let '(ds, r) := take_dec l in
  match ds with
  | [] => (fZ N 0, O)
  | _ => match r with
         | 46 :: r' => let '(fs, _) := take_dec r' in (fdec (digits_value (ds ++ fs)) (length fs), (n0 + length ds + 1 + length fs)%nat)
         | _ => (fdec (digits_value ds) 0%nat, (n0 + length ds)%nat)
         end
  end.
Definition dec_libc {N} (fdec : Z -> nat -> F N) : libc N := Libc N (dec_strtof fdec) fdec.
(** exact, correctly rounded to binary32 *)
Definition fdec_R (m : Z) (k : nat) : F NumR := (Rdefinitions.Rdiv (Rdefinitions.IZR m) (Rdefinitions.IZR (10 ^ Z.of_nat k))).
Definition fdec_B (m : Z) (k : nat) : F NumB := b32 (Rdefinitions.Rdiv (Rdefinitions.IZR m) (Rdefinitions.IZR (10 ^ Z.of_nat k))).
From Coq Require Import Floats.SpecFloat.
Definition fdec_SF (m : Z) (k : nat) : F NumSF :=
  match m with
  | Zpos p => match SFdiv 24 128 (S754_finite false p 0) (S754_finite false (Z.to_pos (10 ^ Z.of_nat k)) 0) with
              | S754_finite s m e => binary_round 53 1024 s m e
              | y => y
              end
  | _ => S754_zero false
  end.

(** ** snprintf (C17 7.21.6.5): writes at most max-1 bytes and a NUL, returns the full length. *)
Definition poke (mem : list Z) (i : nat) (bytes : list Z) : res (list Z) :=
  if (i + length bytes <=? length mem)%nat then Ok (firstn i mem ++ bytes ++ skipn (i + length bytes) mem)
  else UB OobWrite.
Definition snprintf (mem : list Z) (max : Z) (text : list Z) : res (Z * list Z) :=
  if max <=? 0 then Ok (Z.of_nat (length text), mem)
  else do mem <- poke mem 0 (firstn (Z.to_nat (max - 1)) text ++ [0]);
       Ok (Z.of_nat (length text), mem).
(** %c: int -> unsigned char *)
Definition pc (x : Z) : list Z := [u8 x].
(** %08X of a uint32_t *)
Definition hex_digit (d : Z) : Z := if d <? 10 then 48 + d else 55 + d.
Definition hex8 (v : Z) : list Z :=
  map (fun i => hex_digit (v / 16 ^ i mod 16)) [7; 6; 5; 4; 3; 2; 1; 0].
