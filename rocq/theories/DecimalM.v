(** Model of util/internal/DoubleToDecimal.java. A double is its 64-bit pattern as a long. *)
From Verif Require Import Base MathM.

(** DoubleToDecimal.java:53-86 *)
Definition P53 : Z := 53.
Definition C_TINY : Z := 3.
Definition W : Z := 11.
Definition Q_MIN : Z := -1074.
Definition Q_MAX : Z := 971.
Definition BQ_MASK : Z := 2047.
Definition C_MIN : Z := 4503599627370496.
Definition T_MASK : Z := 4503599627370495.
Definition MASK_63 : Z := 9223372036854775807.
Definition MASK_28 : Z := 268435455.
Definition MAX_CHARS : Z := 24.

(** DoubleToDecimal.java:151-158 *)
Definition rop (g1 g0 cp : Z) : Z :=
  let x1 := multiplyHigh g0 cp in
  let y0 := wrap64 (g1 * cp) in
  let y1 := multiplyHigh g1 cp in
  let z := wrap64 (lushr y0 1 + x1) in
  let vbp := wrap64 (y1 + lushr z 63) in
  Z.lor vbp (lushr (wrap64 (Z.land z MASK_63 + MASK_63)) 63).

(** DoubleToDecimal.java:262-350. The Java method ends in a call toChars(f, e, fd); here the pair (f, e)
    is returned and toChars is applied by the caller. *)
Definition toDecimal4 (q c dk : Z) : res (Z * Z) :=
  let out := Z.land (wrap32 c) 1 in
  let cb := lshl c 2 in
  let cbr := wrap64 (cb + 2) in
  let '(cbl, k) :=
    if negb (c =? C_MIN) || (q =? Q_MIN) then (wrap64 (cb - 2), flog10pow2 q)
    else (wrap64 (cb - 1), flog10threeQuartersPow2 q) in
  let h := wrap32 (wrap32 (q + flog2pow10 (wrap32 (- k))) + 2) in
  let* vg1 := g1 k in
  let* vg0 := g0 k in
  let vb := rop vg1 vg0 (lshl cb h) in
  let vbl := rop vg1 vg0 (lshl cbl h) in
  let vbr := rop vg1 vg0 (lshl cbr h) in
  let s := lshr vb 2 in
  let sp10 := wrap64 (10 * multiplyHigh s (lshl 115292150460684698 4)) in
  let tp10 := wrap64 (sp10 + 10) in
  let upin := wrap64 (vbl + out) <=? lshl sp10 2 in
  let wpin := wrap64 (lshl tp10 2 + out) <=? vbr in
  if (100 <=? s) && xorb upin wpin then Ok (if upin then sp10 else tp10, k)
  else
    let t := wrap64 (s + 1) in
    let uin := wrap64 (vbl + out) <=? lshl s 2 in
    let win := wrap64 (lshl t 2 + out) <=? vbr in
    if xorb uin win then Ok (if uin then s else t, wrap32 (k + dk))
    else
      let cmp := wrap64 (vb - lshl (wrap64 (s + t)) 1) in
      Ok (if (cmp <? 0) || (cmp =? 0) && (Z.land s 1 =? 0) then s else t, wrap32 (k + dk)).

(** DoubleToDecimal.java:89-94 *)
Inductive dclass :=
| NonSpecial (negative : bool) (f e : Z)
| PlusZero | MinusZero | PlusInf | MinusInf | NotANumber.

(** DoubleToDecimal.java:215-260 *)
Definition toDecimal (bits : Z) : res dclass :=
  let t := Z.land bits T_MASK in
  let bq := Z.land (wrap32 (lushr bits (P53 - 1))) BQ_MASK in
  if bq <? BQ_MASK then
    let fin (fe : Z * Z) := NonSpecial (bits <? 0) (fst fe) (snd fe) in
    if negb (bq =? 0) then
      let mq := wrap32 (- Q_MIN + 1 - bq) in
      let c := Z.lor C_MIN t in
      let slow := let* fe := toDecimal4 (wrap32 (- mq)) c 0 in Ok (fin fe) in
      if (0 <? mq) && (mq <? P53) then
        let f := lshr c mq in
        if lshl f mq =? c then Ok (fin (f, 0)) else slow
      else slow
    else if negb (t =? 0) then
      let* fe := (if t <? C_TINY then toDecimal4 Q_MIN (wrap64 (10 * t)) (-1) else toDecimal4 Q_MIN t 0) in
      Ok (fin fe)
    else Ok (if bits =? 0 then PlusZero else MinusZero)
  else if negb (t =? 0) then Ok NotANumber
  else Ok (if 0 <? bits then PlusInf else MinusInf).

(** java.lang.Long.numberOfLeadingZeros *)
Definition nlz64 (x : Z) : Z := if x <? 0 then 0 else if x =? 0 then 64 else 63 - Z.log2 x.

(** DoubleToDecimal.java:362-365: the number of decimal digits of f *)
Definition decLen (f : Z) : res Z :=
  let len := flog10pow2 (64 - nlz64 f) in
  let* p := pow10 len in
  Ok (if p <=? f then len + 1 else len).

(** ** Rendering as text (fd = null). [bytes] up to [index] is a list; an append past the 24 bytes of
    the array is an exception. *)

(** DoubleToDecimal.java:527-533 *)
Definition put (bs : list Z) (c : Z) : res (list Z) :=
  if zlen bs <? MAX_CHARS then Ok (bs ++ [c]) else Err IndexOOB.
Definition putDigit (bs : list Z) (d : Z) : res (list Z) := put bs (ch "0" + d).

(** DoubleToDecimal.java:486-496 *)
Definition yOf (a : Z) : Z :=
  wrap32 (wrap32 (lushr (multiplyHigh (lshl (wrap32 (a + 1)) 28) 193428131138340668) 20) - 1).

(** the digit extraction loops of 418-422, 424-428, 469-473: [n] digits starting from [y] *)
Fixpoint extract (n : nat) (y : Z) (bs : list Z) : res (Z * list Z) :=
  match n with
  | O => Ok (y, bs)
  | S n' =>
      let t := wrap32 (10 * y) in
      let* bs := putDigit bs (iushr t 28) in
      extract n' (Z.land t MASK_28) bs
  end.

(** DoubleToDecimal.java:463-474 *)
Definition append8Digits (m : Z) (bs : list Z) : res (list Z) :=
  let* (_, bs) := extract 8 (yOf m) bs in Ok bs.

(** DoubleToDecimal.java:477-479 *)
Fixpoint dropZeros (fuel : nat) (bs : list Z) (index : Z) : res Z :=
  match fuel with
  | O => Err OutOfFuel
  | S f => let* c := aget bs index in
           if c =? ch "0" then dropZeros f bs (index - 1) else Ok index
  end.

(** DoubleToDecimal.java:476-484. Reading a byte never written (not in the list) is an exception here. *)
Definition removeTrailingZeroes (bs : list Z) : res (list Z) :=
  let* index := dropZeros (S (List.length bs)) bs (zlen bs - 1) in
  let* c := aget bs index in
  let index := if c =? ch "." then index + 1 else index in
  let* _ := aget bs index in
  Ok (firstn (Z.to_nat (index + 1)) bs).

(** DoubleToDecimal.java:456-461 *)
Definition lowDigits (l : Z) (bs : list Z) : res (list Z) :=
  let* bs := (if negb (l =? 0) then append8Digits l bs else Ok bs) in
  removeTrailingZeroes bs.

(** DoubleToDecimal.java:408-431 *)
Definition toChars1 (h m l e : Z) (bs : list Z) : res (list Z) :=
  let* bs := putDigit bs h in
  let* (y, bs) := extract (Z.to_nat (e - 1)) (yOf m) bs in
  let* bs := put bs (ch ".") in
  let* (_, bs) := extract (Z.to_nat (8 - Z.max 1 e + 1)) y bs in
  lowDigits l bs.

(** DoubleToDecimal.java:437-439 *)
Fixpoint putZeros (n : nat) (bs : list Z) : res (list Z) :=
  match n with
  | O => Ok bs
  | S n' => let* bs := putDigit bs 0 in putZeros n' bs
  end.

(** DoubleToDecimal.java:433-444 *)
Definition toChars2 (h m l e : Z) (bs : list Z) : res (list Z) :=
  let* bs := putDigit bs 0 in
  let* bs := put bs (ch ".") in
  let* bs := putZeros (Z.to_nat (- e)) bs in
  let* bs := putDigit bs h in
  let* bs := append8Digits m bs in
  lowDigits l bs.

(** DoubleToDecimal.java:498-525 *)
Definition exponent (e : Z) (bs : list Z) : res (list Z) :=
  let* bs := put bs (ch "E") in
  let* bs := (if e <? 0 then put bs (ch "-") else Ok bs) in
  let e := if e <? 0 then - e else e in
  if e <? 10 then putDigit bs e
  else
    let* (e, bs) :=
      (if 100 <=? e then
         let d := iushr (wrap32 (e * 1311)) 17 in
         let* bs := putDigit bs d in Ok (e - 100 * d, bs)
       else Ok (e, bs)) in
    let d := iushr (wrap32 (e * 103)) 10 in
    let* bs := putDigit bs d in
    putDigit bs (e - 10 * d).

(** DoubleToDecimal.java:446-454 *)
Definition toChars3 (h m l e : Z) (bs : list Z) : res (list Z) :=
  let* bs := putDigit bs h in
  let* bs := put bs (ch ".") in
  let* bs := append8Digits m bs in
  let* bs := lowDigits l bs in
  exponent (e - 1) bs.

(** DoubleToDecimal.java:355-406 with fd = null *)
Definition toCharsText (f e : Z) (bs : list Z) : res (list Z) :=
  let* len := decLen f in
  let* p := pow10 (H17 - len) in
  let f := wrap64 (f * p) in
  let e := e + len in
  let hm := lushr (multiplyHigh f 193428131138340668) 20 in
  let l := wrap32 (wrap64 (f - wrap64 (100000000 * hm))) in
  let h := wrap32 (lushr (wrap64 (hm * 1441151881)) 57) in
  let m := wrap32 (wrap64 (hm - wrap32 (100000000 * h))) in
  if (0 <? e) && (e <=? 7) then toChars1 h m l e bs
  else if (-3 <? e) && (e <=? 0) then toChars2 h m l e bs
  else toChars3 h m l e bs.

(** DoubleToDecimal.java:112-114, 160-175 *)
Definition d2d_toString (bits : Z) : res (list Z) :=
  let* d := toDecimal bits in
  match d with
  | NonSpecial neg f e =>
      let* bs := (if neg then put [] (ch "-") else Ok []) in
      toCharsText f e bs
  | PlusZero => Ok (txt "0.0")
  | MinusZero => Ok (txt "-0.0")
  | PlusInf => Ok (txt "Infinity")
  | MinusInf => Ok (txt "-Infinity")
  | NotANumber => Ok (txt "NaN")
  end.
