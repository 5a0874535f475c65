(** Model of the debugging texts: toString of the number wrappers and of a layout. *)
From Verif Require Import Base Digits UtilsM SeqM IntFormM FormatterM MathM DecimalM BigDecM TraitsM.

(** number/ByteWrapper.java:38-40, ShortWrapper.java:38-40, IntWrapper.java:43-46, LongWrapper.java:42-45: the JDK's decimal text *)
Definition machineText (v : Z) : list Z := dec_text v.
(** number/BigIntegerWrapper.java:44-51 on the stored absolute value and signum *)
Definition signedText (signum : Z) (value : list Z) : list Z := if 0 <=? signum then value else txt "-" ++ value.
Definition bigText (v : Z) : list Z := signedText (Z.sgn v) (dec_text (Z.abs v)).
(** number/BigDecimalWrapper.java:178-185 *)
Definition decText (J : jdk) (d : bigdec) : list Z := signedText (Z.sgn (bd_u d)) (j_bigDecText J (bd_abs d)).
(** number/DoubleWrapper.java:164-167 *)
Definition doubleText (b : Z) : res (list Z) := d2d_toString b.

(** number/FloatLayout.java:23-34; the mantissa is never null *)
Definition layoutText (l : layout) : res (list Z) :=
  let* sb := s_toSB (l_mant l) [] in
  match l_exp l with
  | None => Ok sb
  | Some x => s_toSB x (sb ++ txt "e")
  end.
