(** Arithmetic interface used by every numeric model, and its three instances.

    A [Num] is a bag of operations WITHOUT laws: a theorem quantified over all
    [Num] holds for IEEE doubles (with rounding, NaN and infinities), for exact
    reals, and for anything else.  Each C++ operator is mapped to one field. *)
From Verif Require Import Base.
From Coq Require Import Reals Floats.SpecFloat.
From Flocq Require Import Core.

Record Num : Type := MkNum {
  F : Type;
  fadd : F -> F -> F;      (* +  on double *)
  fsub : F -> F -> F;
  fmul : F -> F -> F;
  fdiv : F -> F -> F;
  fneg : F -> F;           (* unary - *)
  fabs : F -> F;           (* fabs / std::abs *)
  fsqrt : F -> F;          (* sqrt *)
  ffloor : F -> F;         (* floor *)
  flt : F -> F -> bool;    (* <  (false on NaN) *)
  fle : F -> F -> bool;    (* <= (false on NaN) *)
  feq : F -> F -> bool;    (* == (false on NaN) *)
  fZ : Z -> F;             (* integer to double *)
  fq : Z -> positive -> F; (* decimal literal n/d *)
  flt_inf : F -> bool;     (* x < INFINITY *)
  f32 : F -> F;            (* conversion to float and back to double *)
  ftrunc : F -> option Z   (* value of the conversion to an integer before the
                              range check; None for NaN and infinities *)
}.

(** ** Instance 1: exact real arithmetic. *)
Definition NumR : Num := {|
  F := R;
  fadd := Rplus; fsub := Rminus; fmul := Rmult; fdiv := Rdiv;
  fneg := Ropp; fabs := Rabs; fsqrt := sqrt;
  ffloor := fun x => IZR (Zfloor x);
  flt := Rlt_bool; fle := Rle_bool; feq := Req_bool;
  fZ := IZR;
  fq := fun n d => (IZR n / IZR (Zpos d))%R;
  flt_inf := fun _ => true;
  f32 := fun x => x;
  ftrunc := fun x => Some (Ztrunc x)
|}.

(** ** Instance 2: reals with IEEE-754 rounding to nearest even after every
    operation (binary64; [f32] rounds to binary32).  No overflow, no NaN: every
    theorem about this instance bounds its magnitudes well below 2^1023. *)
Definition exp64 := FLT_exp (-1074) 53.
Definition exp32 := FLT_exp (-149) 24.
Definition b64 (x : R) : R := round radix2 exp64 ZnearestE x.
Definition b32 (x : R) : R := round radix2 exp32 ZnearestE x.
Definition is_b64 (x : R) : Prop := generic_format radix2 exp64 x.
Definition is_b32 (x : R) : Prop := generic_format radix2 exp32 x.

Definition NumB : Num := {|
  F := R;
  fadd := fun x y => b64 (x + y); fsub := fun x y => b64 (x - y);
  fmul := fun x y => b64 (x * y); fdiv := fun x y => b64 (x / y);
  fneg := Ropp; fabs := Rabs; fsqrt := fun x => b64 (sqrt x);
  ffloor := fun x => IZR (Zfloor x);
  flt := Rlt_bool; fle := Rle_bool; feq := Req_bool;
  fZ := fun z => b64 (IZR z);
  fq := fun n d => b64 (IZR n / IZR (Zpos d));
  flt_inf := fun _ => true;
  f32 := b32;
  ftrunc := fun x => Some (Ztrunc x)
|}.

(** ** Instance 3: executable IEEE binary64 on the standard library's
    [spec_float] (signed zeros, infinities, NaN, rounding to nearest even). *)
Definition sf_ofZ (z : Z) : spec_float := binary_normalize 53 1024 z 0 false.

Definition sf_floor (x : spec_float) : spec_float :=
  match x with
  | S754_finite s m e =>
      if 0 <=? e then x
      else let v := if s then Zneg m else Zpos m in
           let q := v / 2 ^ (- e) in
           if q =? 0 then S754_zero s else sf_ofZ q
  | _ => x
  end.

Definition sf_trunc (x : spec_float) : option Z :=
  match x with
  | S754_zero _ => Some 0
  | S754_finite s m e =>
      let a := if 0 <=? e then Zpos m * 2 ^ e else Zpos m / 2 ^ (- e) in
      Some (if s then - a else a)
  | _ => None
  end.

(** double -> float -> double: round to 24 bits, then re-normalise to 53 bits
    (exact, every binary32 number is a binary64 number). *)
Definition sf_to32 (x : spec_float) : spec_float :=
  match x with
  | S754_finite s m e =>
      match binary_round 24 128 s m e with
      | S754_finite s' m' e' => binary_round 53 1024 s' m' e'
      | y => y
      end
  | _ => x
  end.

Definition NumSF : Num := {|
  F := spec_float;
  fadd := SFadd 53 1024; fsub := SFsub 53 1024; fmul := SFmul 53 1024; fdiv := SFdiv 53 1024;
  fneg := SFopp; fabs := SFabs; fsqrt := SFsqrt 53 1024;
  ffloor := sf_floor;
  flt := SFltb; fle := SFleb; feq := SFeqb;
  fZ := sf_ofZ;
  fq := fun n d => SFdiv 53 1024 (sf_ofZ n) (sf_ofZ (Zpos d));
  flt_inf := fun x => SFltb x (S754_infinity false);
  f32 := sf_to32;
  ftrunc := sf_trunc
|}.

(** ** float -> uint32_t conversion.
    ISO C++ [conv.fpint]: truncation; undefined if the truncated value does not
    fit.  [oor] says what the platform does outside the range. *)
Definition conv_policy := Z -> res Z.
Definition strict_iso : conv_policy := fun _ => UB BadConv.
Definition wrap_u32 : conv_policy := fun z => Ok (u32 z).      (* x86-64 *)
Definition saturate_u32 : conv_policy := fun z => Ok (if z <? 0 then 0 else 4294967295).

Definition to_u32 (N : Num) (oor : conv_policy) (x : F N) : res Z :=
  match ftrunc N x with
  | None => UB BadConv
  | Some z => if (0 <=? z) && (z <? 4294967296) then Ok z else oor z
  end.

(** float -> uint8_t, same rule. *)
Definition to_u8 (N : Num) (oor : conv_policy) (x : F N) : res Z :=
  match ftrunc N x with
  | None => UB BadConv
  | Some z => if (0 <=? z) && (z <? 256) then Ok z else oor z
  end.

(** float -> int (32 bit), same rule. *)
Definition to_i32 (N : Num) (oor : conv_policy) (x : F N) : res Z :=
  match ftrunc N x with
  | None => UB BadConv
  | Some z => if (-2147483648 <=? z) && (z <? 2147483648) then Ok z else oor z
  end.

(** Sanity checks of the executable instance (tests, not proofs). *)
Example sf_third : SFdiv 53 1024 (sf_ofZ 1) (sf_ofZ 3) = S754_finite false 6004799503160661 (-54).
Proof. reflexivity. Qed.
Example sf_floor_neg : sf_floor (SFdiv 53 1024 (sf_ofZ (-7)) (sf_ofZ 2)) = sf_ofZ (-4).
Proof. reflexivity. Qed.
Example sf_to32_tenth : sf_to32 (SFdiv 53 1024 (sf_ofZ 1) (sf_ofZ 10)) = S754_finite false (13421773 * 2 ^ 29) (-27 - 29).
Proof. reflexivity. Qed.
