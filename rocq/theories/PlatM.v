(** What the code asks the platform for, and the functions that depend on it (DecimalM.v and SeqM.v have the JDK's multiplyHigh and
    the library's own loop for repeated characters built in). *)
From Verif Require Import Base UtilsM SeqM MathM DecimalM.

(** MultiplyHigh.java:53-55, 94-115; Repeated.java:30-51, 137-139. The two are chosen once, when the classes are loaded. *)
Record platform := mkPlatform {
  p_high : Z -> Z -> Z;                               (* MultiplyHigh.IMPL *)
  p_repeat : Z -> Z -> list Z -> res (list Z) }.      (* Repeated.APPENDER: character, count, StringBuilder *)

(** Repeated.java:61-77 *)
Definition appendRepeated (c n : Z) (sb : list Z) : res (list Z) :=
  if n =? 0 then Ok sb
  else if n <? THRESHOLD then appendLoop (Z.to_nat n) (fun _ => Ok c) 0 n sb
  else Ok (sb ++ rep c n).
(** java.lang.StringBuilder.repeat(int, int), JDK 21, by its documentation; an exception is wrapped in a RuntimeException (Repeated.java:44-46) *)
Definition sb_repeat (c n : Z) (sb : list Z) : res (list Z) := if n <? 0 then Err (OtherExn 6) else Ok (sb ++ rep c n).

Definition jdk8 : platform := mkPlatform slowMultiplyHigh appendRepeated.
Definition jdk9 : platform := mkPlatform multiplyHigh appendRepeated.
Definition jdk21 : platform := mkPlatform multiplyHigh sb_repeat.

Section OnPlatform.
  Variable P : platform.

  (** DoubleToDecimal.java:151-158 *)
  Definition rop_on (g1 g0 cp : Z) : Z :=
    let x1 := p_high P g0 cp in
    let y0 := wrap64 (g1 * cp) in
    let y1 := p_high P g1 cp in
    let z := wrap64 (lushr y0 1 + x1) in
    let vbp := wrap64 (y1 + lushr z 63) in
    Z.lor vbp (lushr (wrap64 (Z.land z MASK_63 + MASK_63)) 63).

  (** DoubleToDecimal.java:262-350. The Java method ends in a call toChars(f, e, fd); here the pair (f, e)
      is returned and toChars is applied by the caller. *)
  Definition toDecimal4_on (q c dk : Z) : res (Z * Z) :=
    let out := Z.land (wrap32 c) 1 in
    let cb := lshl c 2 in
    let cbr := wrap64 (cb + 2) in
    let '(cbl, k) :=
      if negb (c =? C_MIN) || (q =? Q_MIN) then (wrap64 (cb - 2), flog10pow2 q)
      else (wrap64 (cb - 1), flog10threeQuartersPow2 q) in
    let h := wrap32 (wrap32 (q + flog2pow10 (wrap32 (- k))) + 2) in
    let* vg1 := g1 k in
    let* vg0 := g0 k in
    let vb := rop_on vg1 vg0 (lshl cb h) in
    let vbl := rop_on vg1 vg0 (lshl cbl h) in
    let vbr := rop_on vg1 vg0 (lshl cbr h) in
    let s := lshr vb 2 in
    let sp10 := wrap64 (10 * p_high P s (lshl 115292150460684698 4)) in
    let tp10 := wrap64 (sp10 + 10) in
    let upin := wrap64 (vbl + out) <=? lshl sp10 2 in
    let wpin := wrap64 (lshl tp10 2 + out) <=? vbr in
    if (100 <=? s) && xorb upin wpin then Ok (if upin then sp10 else tp10, k)
    else
      let t := wrap64 (s + 1) in
      let uin := wrap64 (vbl + out) <=? lshl s 2 in
      let win := wrap64 (lshl t 2 + out) <=? vbr in
      if xorb uin win then Ok (if uin then s else t, wrap32 (k + dk))
      else
        let cmp := wrap64 (vb - lshl (wrap64 (s + t)) 1) in
        Ok (if (cmp <? 0) || (cmp =? 0) && (Z.land s 1 =? 0) then s else t, wrap32 (k + dk)).

  (** DoubleToDecimal.java:215-260 *)
  Definition toDecimal_on (bits : Z) : res dclass :=
    let t := Z.land bits T_MASK in
    let bq := Z.land (wrap32 (lushr bits (P53 - 1))) BQ_MASK in
    if bq <? BQ_MASK then
      let fin (fe : Z * Z) := NonSpecial (bits <? 0) (fst fe) (snd fe) in
      if negb (bq =? 0) then
        let mq := wrap32 (- Q_MIN + 1 - bq) in
        let c := Z.lor C_MIN t in
        let slow := let* fe := toDecimal4_on (wrap32 (- mq)) c 0 in Ok (fin fe) in
        if (0 <? mq) && (mq <? P53) then
          let f := lshr c mq in
          if lshl f mq =? c then Ok (fin (f, 0)) else slow
        else slow
      else if negb (t =? 0) then
        let* fe := (if t <? C_TINY then toDecimal4_on Q_MIN (wrap64 (10 * t)) (-1) else toDecimal4_on Q_MIN t 0) in
        Ok (fin fe)
      else Ok (if bits =? 0 then PlusZero else MinusZero)
    else if negb (t =? 0) then Ok NotANumber
    else Ok (if 0 <? bits then PlusInf else MinusInf).

  (** DoubleToDecimal.java:486-496 *)
  Definition yOf_on (a : Z) : Z :=
    wrap32 (wrap32 (lushr (p_high P (lshl (wrap32 (a + 1)) 28) 193428131138340668) 20) - 1).

  (** DoubleToDecimal.java:463-474 *)
  Definition append8Digits_on (m : Z) (bs : list Z) : res (list Z) :=
    let* (_, bs) := extract 8 (yOf_on m) bs in Ok bs.

  (** DoubleToDecimal.java:456-461 *)
  Definition lowDigits_on (l : Z) (bs : list Z) : res (list Z) :=
    let* bs := (if negb (l =? 0) then append8Digits_on l bs else Ok bs) in
    removeTrailingZeroes bs.

  (** DoubleToDecimal.java:408-431 *)
  Definition toChars1_on (h m l e : Z) (bs : list Z) : res (list Z) :=
    let* bs := putDigit bs h in
    let* (y, bs) := extract (Z.to_nat (e - 1)) (yOf_on m) bs in
    let* bs := put bs (ch ".") in
    let* (_, bs) := extract (Z.to_nat (8 - Z.max 1 e + 1)) y bs in
    lowDigits_on l bs.

  (** DoubleToDecimal.java:433-444 *)
  Definition toChars2_on (h m l e : Z) (bs : list Z) : res (list Z) :=
    let* bs := putDigit bs 0 in
    let* bs := put bs (ch ".") in
    let* bs := putZeros (Z.to_nat (- e)) bs in
    let* bs := putDigit bs h in
    let* bs := append8Digits_on m bs in
    lowDigits_on l bs.

  (** DoubleToDecimal.java:446-454 *)
  Definition toChars3_on (h m l e : Z) (bs : list Z) : res (list Z) :=
    let* bs := putDigit bs h in
    let* bs := put bs (ch ".") in
    let* bs := append8Digits_on m bs in
    let* bs := lowDigits_on l bs in
    exponent (e - 1) bs.

  (** DoubleToDecimal.java:355-406 with fd = null *)
  Definition toCharsText_on (f e : Z) (bs : list Z) : res (list Z) :=
    let* len := decLen f in
    let* p := pow10 (H17 - len) in
    let f := wrap64 (f * p) in
    let e := e + len in
    let hm := lushr (p_high P f 193428131138340668) 20 in
    let l := wrap32 (wrap64 (f - wrap64 (100000000 * hm))) in
    let h := wrap32 (lushr (wrap64 (hm * 1441151881)) 57) in
    let m := wrap32 (wrap64 (hm - wrap32 (100000000 * h))) in
    if (0 <? e) && (e <=? 7) then toChars1_on h m l e bs
    else if (-3 <? e) && (e <=? 0) then toChars2_on h m l e bs
    else toChars3_on h m l e bs.

  (** DoubleToDecimal.java:112-114, 160-175 *)
  Definition d2d_toString_on (bits : Z) : res (list Z) :=
    let* d := toDecimal_on bits in
    match d with
    | NonSpecial neg f e =>
        let* bs := (if neg then put [] (ch "-") else Ok []) in
        toCharsText_on f e bs
    | PlusZero => Ok (txt "0.0")
    | MinusZero => Ok (txt "-0.0")
    | PlusInf => Ok (txt "Infinity")
    | MinusInf => Ok (txt "-Infinity")
    | NotANumber => Ok (txt "NaN")
    end.

  (** Repeated.java:137-139; the other atoms do not depend on the platform *)
  Definition a_toSB_on (a : atom) (sb : list Z) : res (list Z) := match a with ARep c n => p_repeat P c n sb | _ => a_toSB a sb end.
End OnPlatform.
