(** Bit patterns of double and float as the IEEE 754 numbers of Coq's standard library (Floats.SpecFloat, itself taken from Flocq). *)
From Coq Require Import SpecFloat.
From Verif Require Import Base SeqM TraitsM DecSpec FloatSpec DirSpec.
Open Scope Z_scope.

(** [w] significand bits stored; [e] the largest exponent field, for infinities and NaN; [bias] such that 2^-bias is the last bit of a
    number whose exponent field is 0 *)
Definition sf_bits (w e bias : Z) (neg : bool) (m : Z) : spec_float :=
  if e * 2 ^ w <? m then S754_nan
  else if m =? e * 2 ^ w then S754_infinity neg
  else match (if m / 2 ^ w =? 0 then m else 2 ^ w + m mod 2 ^ w) with
       | Zpos p => S754_finite neg p (Z.max 1 (m / 2 ^ w) - bias)
       | _ => S754_zero neg
       end.

Definition sf_double (b : Z) : spec_float := sf_bits 52 2047 1075 (b <? 0) (b mod 2 ^ 63).
Definition sf_float (f : Z) : spec_float := sf_bits 23 255 150 (f <? 0) (f mod 2 ^ 31).

(** binary64 *)
Definition d_prec := 53.
Definition d_emax := 1024.

(** ** Java's conversions to double, in that arithmetic *)

(** (double) z *)
Definition sf_int (z : Z) : spec_float := binary_normalize d_prec d_emax z 0 false.
(** (double) of a float *)
Definition sf_widen (x : spec_float) : spec_float := match x with S754_finite s m e => binary_round d_prec d_emax s m e | _ => x end.
(** a number of milliseconds in seconds: z / 1000.0 *)
Definition sf_millis (z : Z) : spec_float := SFdiv d_prec d_emax (sf_int z) (sf_int 1000).
(** s + n / 1000000000.0 *)
Definition sf_point (s n : Z) : spec_float := SFadd d_prec d_emax (sf_int s) (SFdiv d_prec d_emax (sf_int n) (sf_int 1000000000)).

(** the double of an argument, unless Double.parseDouble reads it from a text or it is a BigInteger or BigDecimal, which %f, %e, %g and
    %a read by themselves *)
Definition sf_arg (J : jdk) (v : value) : option spec_float :=
  match v with
  | VDouble b => Some (sf_double b)
  | VFloat f => Some (sf_widen (sf_float f))
  | VByte z | VShort z | VInt z | VLong z | VChar z => Some (sf_int z)
  | VBool v => Some (sf_int (if v then 1 else 0))
  | VObj (ONumber _ (Ok d) _ _) => Some (sf_double d)
  | VObj (ODate (Ok m) _ _) | VObj (OCalendar (Ok m) _) => Some (sf_millis m)
  | VTemporal t => match point J t with Some (s, n) => Some (sf_point s n) | None => None end
  | _ => None
  end.
