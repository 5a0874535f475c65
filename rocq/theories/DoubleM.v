(** Model of number/DoubleWrapper.java, and of the JDK operations on doubles it uses. *)
From Verif Require Import Base Digits MathM DecimalM FPDecimalM SeqM FormatterM.

(** ** doubles as bit patterns (longs) *)

(** Double.doubleToRawLongBits fields; IEEE 754 *)
Definition dbl_neg (b : Z) : bool := b <? 0.
Definition dbl_mag (b : Z) : Z := b mod 2 ^ 63.       (* bits without the sign *)
Definition dbl_bexp (b : Z) : Z := dbl_mag b / 2 ^ 52. (* biased exponent *)
Definition dbl_frac (b : Z) : Z := b mod 2 ^ 52.
Definition dbl_isNaN (b : Z) : bool := (dbl_bexp b =? 2047) && negb (dbl_frac b =? 0).
Definition dbl_isInf (b : Z) : bool := (dbl_bexp b =? 2047) && (dbl_frac b =? 0).
Definition dbl_isZero (b : Z) : bool := dbl_mag b =? 0.
Definition dbl_isFinite (b : Z) : bool := negb (dbl_bexp b =? 2047).

(** Math.abs *)
Definition dbl_abs (b : Z) : Z := dbl_mag b.

(** Double.compare(v, 0D): numeric order, -0.0 below 0.0, NaN above everything *)
Definition dbl_compare0 (b : Z) : Z :=
  if dbl_isNaN b then 1
  else if dbl_isZero b then (if dbl_neg b then -1 else 0)
  else if dbl_neg b then -1 else 1.

(** Math.getExponent *)
Definition dbl_getExponent (b : Z) : Z := dbl_bexp b - 1023.

(** JDK Double.toHexString: the 13 hex digits of the fraction without trailing zeros, at least one digit *)
Fixpoint strip0 (l : list Z) : list Z :=
  match l with
  | [] => []
  | c :: r => match strip0 r with [] => if c =? ch "0" then [] else [c] | r' => c :: r' end
  end.
Definition hexFraction (frac : Z) : list Z :=
  match strip0 (map digit_char (fixdigs 16 13 frac)) with [] => txt "0" | l => l end.
Definition toHexString (b : Z) : list Z :=
  if dbl_isNaN b then txt "NaN"
  else
    (if dbl_neg b then txt "-" else []) ++
    (if dbl_isInf b then txt "Infinity"
     else if dbl_isZero b then txt "0x0.0p0"
     else if dbl_bexp b =? 0 then txt "0x0." ++ hexFraction (dbl_frac b) ++ txt "p-1022"
     else txt "0x1." ++ hexFraction (dbl_frac b) ++ txt "p" ++ dec_text (dbl_getExponent b)).

(** String.indexOf *)
Definition strIndexOf (s : list Z) (c : Z) : Z := match find c s with Some k => k | None => -1 end.

(** JDK Integer.parseInt: optional sign, ASCII digits, int range; None = NumberFormatException. Only used on texts the JDK
    made itself, which have ASCII digits; arguments are parsed by parseJava (TraitsM.v). *)
Definition parseDigits (max : Z) (neg : bool) (ds : list Z) : option Z :=
  match ds with
  | [] => None
  | _ =>
      if forallb (fun c => (48 <=? c) && (c <=? 57)) ds then
        let v := of_numeral 10 ds in
        if neg then if v <=? max + 1 then Some (- v) else None
        else if v <=? max then Some v else None
      else None
  end.
Definition parseSigned (max : Z) (s : list Z) : option Z :=
  match s with
  | 45 :: ds => parseDigits max true ds
  | 43 :: ds => parseDigits max false ds
  | ds => parseDigits max false ds
  end.
Definition jParseInt (s : list Z) : option Z := parseSigned int_max s.

(** ** DoubleWrapper *)

(** DoubleWrapper.java:22-24 *)
Definition startsWithMinus (s : list Z) : bool := match s with 45 :: _ => true | _ => false end.

(** DoubleWrapper.java:35-40 *)
Definition addPlus (s : list Z) : seq :=
  if startsWithMinus s then wrapS s else wrapS (txt "+" ++ s).

(** DoubleWrapper.java:26-33. [assert (p >= 0)] is off by default. *)
Definition simpleHexLayout (b : Z) : res layout :=
  let s := toHexString b in
  let p := strIndexOf s (ch "p") in
  let* m := s_wrap3 s (if startsWithMinus s then 3 else 2) p in
  Ok (mkLayout (Leaf m) (Some (addPlus (skipn (Z.to_nat (p + 1)) s)))).

(** DoubleWrapper.java:18-20, 57-60 *)
Definition seqOfArr (a : list Z) : seq := Leaf (s_forArray a).
Definition layoutOf (r : res fpchars) : res layout :=
  let* (m, x) := r in Ok (mkLayout (seqOfArr m) (option_map seqOfArr x)).

(** DoubleWrapper.java:62-68 *)
Definition dbl_general (b prec : Z) : res layout :=
  if dbl_isZero b then Ok (mkLayout (chS (ch "0")) None)
  else layoutOf (let* d := split (dbl_abs b) in general d prec).

(** DoubleWrapper.java:70-76 *)
Definition dbl_scientific (b prec : Z) : res layout :=
  if dbl_isZero b then Ok (mkLayout (chS (ch "0")) (Some (wrapS (txt "+00"))))
  else layoutOf (let* d := split (dbl_abs b) in scientific d prec).

(** DoubleWrapper.java:78-81 *)
Definition dbl_decimal (b prec : Z) : res layout :=
  layoutOf (let* d := split (dbl_abs b) in plain d prec).

(** d * 2^54 for a subnormal d (DoubleWrapper.java:10, 99): exact, and normal *)
Definition scaleUp (b : Z) : Z :=
  let t := dbl_frac b in
  let l := Z.log2 t in
  wrap64 ((if dbl_neg b then 2 ^ 63 else 0) + (l + 3) * 2 ^ 52 + (t * 2 ^ (52 - l) - 2 ^ 52)).

(** DoubleConsts.java:41-66 *)
Definition SIGNIFICAND_WIDTH : Z := 53.
Definition EXP_SIGNIF_MASK : Z := 9223372036854775807.
Definition SIGN_BIT_MASK : Z := -9223372036854775808.

(** DoubleWrapper.java:110-131: the bits rounded to [1 + 4*prec] significand bits *)
Definition hexRound (doppel prec : Z) : Z :=
  let precision := 1 + prec * 4 in
  let shiftDistance := SIGNIFICAND_WIDTH - precision in
  let newSignif := lshr (Z.land doppel EXP_SIGNIF_MASK) shiftDistance in
  let roundingBits := Z.land doppel (Z.lnot (lshl (-1) shiftDistance)) in
  let leastZero := Z.land newSignif 1 =? 0 in
  let round := negb (Z.land (lshl 1 (shiftDistance - 1)) roundingBits =? 0) in
  let sticky := (1 <? shiftDistance) &&
                negb (Z.land (Z.lnot (lshl 1 (shiftDistance - 1))) roundingBits =? 0) in
  let newSignif := if (leastZero && round && sticky) || (negb leastZero && round)
                   then newSignif + 1 else newSignif in
  let signBit := Z.land doppel SIGN_BIT_MASK in
  Z.lor signBit (lshl newSignif shiftDistance).

(** DoubleWrapper.java:83-153 *)
Definition dbl_hex (b prec : Z) : res layout :=
  if negb (dbl_isFinite b) || dbl_isZero b || (prec =? 0) || (13 <=? prec) then simpleHexLayout b
  else
    let subnormal := dbl_getExponent b =? -1023 in
    let d := if subnormal then scaleUp b else b in
    let result := hexRound d prec in
    if dbl_isInf result then Ok (mkLayout (wrapS (txt "1.0")) (Some (wrapS (txt "+1024"))))
    else if negb subnormal then simpleHexLayout result
    else
      let s := toHexString result in
      let idx := strIndexOf s (ch "p") in
      if 0 <=? idx then
        match jParseInt (skipn (Z.to_nat (idx + 1)) s) with
        | None => Err (OtherExn 3)       (* NumberFormatException *)
        | Some v =>
            let* m := s_wrap3 s (if startsWithMinus s then 3 else 2) idx in
            Ok (mkLayout (Leaf m) (Some (addPlus (dec_text (wrap32 (v - 54))))))
        end
      else Err (OtherExn 0).             (* AssertionError *)

(** DoubleWrapper.java:8-55; NumberForm for the sign *)
Definition doubleForm (b : Z) : floatform :=
  mkFloat (dbl_isNaN b) (dbl_isInf b) (dbl_compare0 b)
    (dbl_general b) (dbl_scientific b) (dbl_decimal b) (dbl_hex b).
