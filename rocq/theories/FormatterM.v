(** Model of appender/SeqFormatter.java, except date/time conversion whose JDK calls are parameters of
    TraitsM.v. Subtractions on int values that could leave the int range are wrapped. *)
From Verif Require Import Base Digits UtilsM SeqM ContextM IntFormM.

(** number/FloatLayout.java:5-20; a null exponent is None *)
Record layout := mkLayout { l_mant : seq; l_exp : option seq }.

(** number/FloatForm.java:24-94, number/NumberForm.java:24-33 *)
Record floatform := mkFloat {
  f_isNaN : bool;
  f_isInf : bool;
  f_signum : Z;
  f_general : Z -> res layout;
  f_scientific : Z -> res layout;
  f_decimal : Z -> res layout;
  f_hex : Z -> res layout }.

(** number/NumberForm.java:31-33 *)
Definition f_isNegative (v : floatform) : bool := f_signum v <? 0.

(** SeqFormatter.java:28-30 *)
Definition width (c : ctx) : Z := if isWidthSet c then c_width c else 0.

(** Seq.repeated as a Seq *)
Definition repeated (x n : Z) : res seq := let* a := s_repeated x n in Ok (Leaf a).
Definition wrapS (s : list Z) : seq := Leaf (s_wrap s).
Definition chS (c : Z) : seq := Leaf (s_ch c).
Definition emptyS : seq := Leaf AEmpty.

(** SeqFormatter.java:32-44 *)
Definition spaceJustify (c : ctx) (v0 : seq) : res seq :=
  let w := width c in
  let len := s_len v0 in
  if len <? w then
    let* pad := repeated (ch " ") (wrap32 (w - len)) in
    Ok (if hasFlag c LEFT_JUSTIFY then s_append v0 pad else s_prepend v0 pad)
  else Ok v0.

(** SeqFormatter.java:46-55 *)
Definition sign (c : ctx) (v0 : seq) (negative : bool) : seq :=
  if negative then s_prepend v0 (chS (ch "-"))
  else if hasFlag c PLUS then s_prepend v0 (chS (ch "+"))
  else if hasFlag c LEADING_SPACE then s_prepend v0 (chS (ch " "))
  else v0.

(** the repeated condition [negative || PLUS || LEADING_SPACE] *)
Definition hasSign (c : ctx) (negative : bool) : bool :=
  negative || hasFlag c PLUS || hasFlag c LEADING_SPACE.

(** SeqFormatter.java:57-71 *)
Definition signAndJustify (c : ctx) (v0 : seq) (negative : bool) : res seq :=
  if negb (hasFlag c ZERO_PAD) || hasFlag c LEFT_JUSTIFY then
    spaceJustify c (sign c v0 negative)
  else
    let w := width c in
    let w := if hasSign c negative then wrap32 (w - 1) else w in
    let len := s_len v0 in
    let* v0 := (if len <? w then
                  let* pad := repeated (ch "0") (wrap32 (w - len)) in Ok (s_prepend v0 pad)
                else Ok v0) in
    Ok (sign c v0 negative).

(** zero padding of digits to a precision: SeqFormatter.java:91-94 and 132-135 *)
Definition padDigits (precision : Z) (v0 : seq) : res seq :=
  if s_len v0 <? precision then
    let* pad := repeated (ch "0") (wrap32 (precision - s_len v0)) in Ok (s_prepend v0 pad)
  else Ok v0.

(** SeqFormatter.java:73-97 *)
Definition fmt_d (c : ctx) (value : intform) : res seq :=
  let signum := i_signum value in
  if (signum =? 0) && (c_prec c =? 0) then
    spaceJustify c (if hasFlag c PLUS then chS (ch "+") else emptyS)
  else
    let* digits := i_dec value in
    let v0 := wrapS digits in
    let precision :=
      if isPrecisionSet c then c_prec c
      else if hasFlag c ZERO_PAD && isWidthSet c && negb (hasFlag c LEFT_JUSTIFY) then
        (if hasSign c (signum <? 0) then wrap32 (c_width c - 1) else c_width c)
      else 1 in
    let* v0 := padDigits precision v0 in
    spaceJustify c (sign c v0 (signum <? 0)).

(** SeqFormatter.java:111-140 *)
Definition formatUnsignedInteger (c : ctx) (value : intform) (toString : intform -> res (list Z))
  (prefix : list Z) : res seq :=
  let signum := i_signum value in
  if (signum =? 0) && (c_prec c =? 0) then spaceJustify c emptyS
  else
    let* digits := toString value in
    let v0 := wrapS digits in
    let precision :=
      if isPrecisionSet c then
        (if hasFlag c ALTERNATE && (match prefix with [48] => true | _ => false end)
         then wrap32 (c_prec c - 1) else c_prec c)
      else if hasFlag c ZERO_PAD && isWidthSet c && negb (hasFlag c LEFT_JUSTIFY) then
        (if hasFlag c ALTERNATE then wrap32 (c_width c - zlen prefix) else c_width c)
      else 1 in
    let* v0 := padDigits precision v0 in
    let v0 := if negb (signum =? 0) && hasFlag c ALTERNATE then s_prepend v0 (wrapS prefix) else v0 in
    spaceJustify c v0.

(** SeqFormatter.java:99-109 *)
Definition fmt_o (c : ctx) (v : intform) : res seq := formatUnsignedInteger c v i_oct (txt "0").
Definition fmt_x (c : ctx) (v : intform) : res seq := formatUnsignedInteger c v i_hex (txt "0x").
Definition fmt_u (c : ctx) (v : intform) : res seq := formatUnsignedInteger c v i_udec (txt "").

(** SeqFormatter.java:142-157 *)
Definition nanOrInfinity (c : ctx) (v : floatform) : res seq :=
  spaceJustify c
    (if f_isNaN v then wrapS (txt "NaN")
     else if f_signum v <? 0 then wrapS (txt "-Infinity")
     else if hasFlag c PLUS then wrapS (txt "+Infinity")
     else wrapS (txt "Infinity")).

(** SeqFormatter.java:173-192 *)
Definition formatFractionalPart (mantissa : seq) (precision : Z) (reserveDot : bool) : res seq :=
  let* dot := s_indexOf mantissa (ch ".") in
  if (precision =? 0) && (dot =? NOT_FOUND) then
    Ok (if reserveDot then s_append mantissa (chS (ch ".")) else mantissa)
  else
    let outPrecision := if 0 <=? dot then s_len mantissa - (dot + 1) else 0 in
    if precision <=? outPrecision then Ok mantissa
    else
      let mantissa := if dot <? 0 then s_append mantissa (chS (ch ".")) else mantissa in
      let* pad := repeated (ch "0") (wrap32 (precision - outPrecision)) in
      Ok (s_append mantissa pad).

(** default precision 6: SeqFormatter.java:163-166, 198-201 *)
Definition precOr6 (c : ctx) : Z := if isPrecisionSet c then c_prec c else 6.

(** SeqFormatter.java:159-171 *)
Definition fmt_f (c : ctx) (v : floatform) : res seq :=
  if f_isNaN v || f_isInf v then nanOrInfinity c v
  else
    let precision := precOr6 c in
    let* l := f_decimal v precision in
    let* mantissa := formatFractionalPart (l_mant l) precision (hasFlag c ALTERNATE) in
    signAndJustify c mantissa (f_isNegative v).

(** dereferencing a possibly null Seq argument of append *)
Definition nonNull (s : option seq) : res seq := match s with Some x => Ok x | None => Err NullPtr end.

(** SeqFormatter.java:194-207 *)
Definition fmt_e (c : ctx) (v : floatform) : res seq :=
  if f_isNaN v || f_isInf v then nanOrInfinity c v
  else
    let precision := precOr6 c in
    let* l := f_scientific v precision in
    let* v0 := formatFractionalPart (l_mant l) precision (hasFlag c ALTERNATE) in
    let v0 := s_append v0 (chS (ch "e")) in
    let* x := nonNull (l_exp l) in
    signAndJustify c (s_append v0 x) (f_isNegative v).

(** SeqFormatter.java:216-220; fuel: every iteration lowers lastCharIndex, which stays above dotIndex *)
Fixpoint stripLoop (fuel : nat) (m : seq) (dotIndex lastCharIndex : Z) : res Z :=
  if dotIndex <? lastCharIndex then
    match fuel with
    | O => Err OutOfFuel
    | S f => let* c := s_charAt m lastCharIndex in
             if c =? ch "0" then stripLoop f m dotIndex (lastCharIndex - 1) else Ok lastCharIndex
    end
  else Ok lastCharIndex.

(** SeqFormatter.java:210-228 *)
Definition stripTrailingZeros (m : seq) : res seq :=
  let* dotIndex := s_indexOf m (ch ".") in
  if dotIndex =? NOT_FOUND then Ok m
  else
    let* last := stripLoop (Z.to_nat (s_len m)) m dotIndex (s_len m - 1) in
    let last := if last =? dotIndex then last - 1 else last in
    s_sub m 0 (last + 1).

(** SeqFormatter.java:233-239: counts significant digits *)
Fixpoint sigLoop (fuel : nat) (m : seq) (i sigDigits : Z) (seen : bool) : res (Z * bool) :=
  if i <? s_len m then
    match fuel with
    | O => Err OutOfFuel
    | S f => let* c := s_charAt m i in
             let seen := seen || ((ch "1" <=? c) && (c <=? ch "9")) in
             sigLoop f m (i + 1) (if seen && negb (c =? ch ".") then sigDigits + 1 else sigDigits) seen
    end
  else Ok (sigDigits, seen).

(** SeqFormatter.java:231-256 *)
Definition padToPrecision (m : seq) (precision : Z) : res seq :=
  let* (sigDigits, seen) := sigLoop (Z.to_nat (s_len m)) m 0 0 false in
  let* zero := s_indexOf m (ch "0") in
  let sigDigits := if negb seen && negb (zero =? -1) then 1 else sigDigits in
  let zerosToPad := wrap32 (precision - sigDigits) in
  let* dot := s_indexOf m (ch ".") in
  let m := if dot =? -1 then s_append m (chS (ch ".")) else m in
  if 0 <? zerosToPad then
    let* pad := repeated (ch "0") zerosToPad in Ok (s_append m pad)
  else Ok m.

(** SeqFormatter.java:259-265 *)
Definition formatGDecimal (c : ctx) (l : layout) (precision : Z) : res seq :=
  if hasFlag c ALTERNATE then padToPrecision (l_mant l) precision
  else stripTrailingZeros (l_mant l).

(** SeqFormatter.java:268-274 *)
Definition formatGScientific (c : ctx) (l : layout) (x : seq) : res seq :=
  let* m := (if negb (hasFlag c ALTERNATE) then stripTrailingZeros (l_mant l) else Ok (l_mant l)) in
  Ok (s_append (s_append m (chS (ch "e"))) x).

(** SeqFormatter.java:276-301 *)
Definition fmt_g (c : ctx) (v : floatform) : res seq :=
  if f_isNaN v || f_isInf v then nanOrInfinity c v
  else
    let precision := if isPrecisionSet c then (if c_prec c =? 0 then 1 else c_prec c) else 6 in
    let* l := f_general v precision in
    let* v0 := (match l_exp l with
                | None => formatGDecimal c l precision
                | Some x => formatGScientific c l x
                end) in
    signAndJustify c v0 (f_isNegative v).

(** SeqFormatter.java:303-338 *)
Definition fmt_a (c : ctx) (v : floatform) : res seq :=
  if f_isNaN v || f_isInf v then nanOrInfinity c v
  else
    let precision := if isPrecisionSet c then (if c_prec c =? 0 then 1 else c_prec c) else 13 in
    let* l := f_hex v precision in
    let* v0 := (if isPrecisionSet c then formatFractionalPart (l_mant l) precision (hasFlag c ALTERNATE)
                else Ok (l_mant l)) in
    let* x := nonNull (l_exp l) in
    let v0 := s_append (s_append v0 (chS (ch "p"))) x in
    let neg := f_signum v <? 0 in
    if hasFlag c ZERO_PAD && negb (hasFlag c LEFT_JUSTIFY) then
      let w := wrap32 (c_width c - 2) in
      let w := if hasSign c neg then wrap32 (w - 1) else w in
      let len := s_len v0 in
      let* v0 := (if len <? w then let* pad := repeated (ch "0") (wrap32 (w - len)) in Ok (s_append pad v0)
                  else Ok v0) in
      Ok (sign c (s_prepend v0 (wrapS (txt "0x"))) neg)
    else
      spaceJustify c (sign c (s_prepend v0 (wrapS (txt "0x"))) neg).

(** SeqFormatter.java:340-342 *)
Definition fmt_c (c : ctx) (x : Z) : res seq := spaceJustify c (chS x).

(** SeqFormatter.java:344-351 *)
Definition fmt_s (c : ctx) (s : seq) : res seq :=
  let* s := (if isPrecisionSet c && (c_prec c <? s_len s) then s_sub s 0 (c_prec c) else Ok s) in
  spaceJustify c s.

(** traits/RefSlot.java:21-59: primitive, null, or an object with class name and identity hash *)
Inductive refslot :=
| RPrimitive
| RNull
| RObj (class_name : list Z) (identity_hash : Z).

(** SeqFormatter.java:353-373 *)
Definition fmt_p (c : ctx) (r : refslot) : res seq :=
  match r with
  | RPrimitive => Err (Printf PrimitivePointer)
  | RNull => spaceJustify c (wrapS (txt "null"))
  | RObj name h =>
      let s := wrapS (numeral 16 (uint32 h)) in
      let s := s_prepend s (chS (ch "@")) in
      let s := s_prepend s (wrapS name) in
      spaceJustify c s
  end.
