(** Model of number/IntForm.java and its implementations. An object of the interface is the record of its
    method results. *)
From Verif Require Import Base Digits.

(** IntForm.java:23-104 (NumberForm.java:24 for signum) *)
Record intform := mkInt {
  i_signum : Z;
  i_dec : res (list Z);      (* toDecimalString *)
  i_hex : res (list Z);      (* toHexString *)
  i_oct : res (list Z);      (* toOctalString *)
  i_udec : res (list Z) }.   (* toUnsignedDecimalString *)

(** JDK: Integer.toHexString etc. print the argument plus 2^32 if negative; Long likewise with 2^64. *)
Definition uint32 (v : Z) : Z := v mod 2 ^ 32.
Definition uint64 (v : Z) : Z := v mod 2 ^ 64.

(** number/ByteWrapper.java:5-40; Byte.toUnsignedInt is [& 0xff] *)
Definition byteForm (v : Z) : intform :=
  mkInt (Z.sgn v) (Ok (dec_text (Z.abs v)))
    (Ok (numeral 16 (uint32 (Z.land v 255)))) (Ok (numeral 8 (uint32 (Z.land v 255))))
    (Ok (numeral 10 (uint32 (Z.land v 255)))).

(** number/ShortWrapper.java:5-40; Short.toUnsignedInt is [& 0xffff] *)
Definition shortForm (v : Z) : intform :=
  mkInt (Z.sgn v) (Ok (dec_text (Z.abs v)))
    (Ok (numeral 16 (uint32 (Z.land v 65535)))) (Ok (numeral 8 (uint32 (Z.land v 65535))))
    (Ok (numeral 10 (uint32 (Z.land v 65535)))).

(** number/IntWrapper.java:15-24 *)
Definition int_toDecimalString (v : Z) : list Z :=
  if 0 <=? v then dec_text v
  else if int_min <? v then dec_text (wrap32 (- v))
  else txt "2147483648".

(** number/IntWrapper.java:3-42 *)
Definition intForm (v : Z) : intform :=
  mkInt (Z.sgn v) (Ok (int_toDecimalString v))
    (Ok (numeral 16 (uint32 v))) (Ok (numeral 8 (uint32 v))) (Ok (numeral 10 (uint32 v))).

(** number/LongWrapper.java:17-25 *)
Definition long_toDecimalString (v : Z) : list Z :=
  if 0 <=? v then dec_text v
  else if long_min <? v then dec_text (wrap64 (- v))
  else txt "9223372036854775808".

(** number/LongWrapper.java:3-41 *)
Definition longForm (v : Z) : intform :=
  mkInt (Z.sgn v) (Ok (long_toDecimalString v))
    (Ok (numeral 16 (uint64 v))) (Ok (numeral 8 (uint64 v))) (Ok (numeral 10 (uint64 v))).

(** number/BigIntegerWrapper.java:53-57 *)
Definition ensureNonNegative (sg : Z) : res unit :=
  if sg <? 0 then Err (Printf NegativeUnsigned) else Ok tt.

(** number/BigIntegerWrapper.java:6-42: the wrapper keeps abs() and signum() of the value *)
Definition bigForm (v : Z) : intform :=
  let value := Z.abs v in
  let sg := Z.sgn v in
  mkInt sg (Ok (dec_text value))
    (let* _ := ensureNonNegative sg in Ok (numeral 16 value))
    (let* _ := ensureNonNegative sg in Ok (numeral 8 value))
    (let* _ := ensureNonNegative sg in Ok (dec_text value)).
