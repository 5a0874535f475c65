(** Model of util/internal/FormattedFPDecimal.java. *)
From Verif Require Import Base MathM DecimalM.

(** FormattedFPDecimal.java:50-54; [digits] and [exp] are the results of the char methods below *)
Record fpd := mkFpd { d_f : Z; d_e : Z; d_n : Z }.

(** FormattedFPDecimal.java:73-79: (char) (d + '0') after a cast to int *)
Definition toDigit (d : Z) : Z := (wrap32 (wrap32 d + 48)) mod 65536.

(** new char[n] *)
Definition newArr (n : Z) : res (list Z) := if n <? 0 then Err (OtherExn 2) else Ok (rep 0 n).

(** digits[i] = c *)
Definition aset (a : list Z) (i c : Z) : res (list Z) :=
  if (0 <=? i) && (i <? zlen a) then Ok (firstn (Z.to_nat i) a ++ c :: skipn (Z.to_nat (i + 1)) a)
  else Err IndexOOB.

(** FormattedFPDecimal.java:303-310; [k] = to - from iterations *)
Fixpoint fillDigits (k : nat) (x to : Z) (a : list Z) : res (Z * list Z) :=
  match k with
  | O => Ok (x, a)
  | S k' =>
      let q := Z.quot x 10 in
      let* a := aset a (to - 1) (toDigit (wrap64 (x - wrap64 (q * 10)))) in
      fillDigits k' q (to - 1) a
  end.
Definition fillWithDigits (x from to : Z) (a : list Z) : res (Z * list Z) :=
  fillDigits (Z.to_nat (to - from)) x to a.

(** FormattedFPDecimal.java:315-319 *)
Fixpoint fillZ (k : nat) (to : Z) (a : list Z) : res (list Z) :=
  match k with
  | O => Ok a
  | S k' => let* a := aset a (to - 1) (ch "0") in fillZ k' (to - 1) a
  end.
Definition fillWithZeros (from to : Z) (a : list Z) : res (list Z) := fillZ (Z.to_nat (to - from)) to a.

(** FormattedFPDecimal.java:206-296 *)
Definition round (d : fpd) (pp : Z) : res fpd :=
  if (d_n d =? 0) || (pp <? 0) then Ok (mkFpd 0 0 1)
  else if d_n d <=? pp then Ok d
  else
    let p := wrap32 pp in
    let e := wrap32 (d_e d + (d_n d - p)) in
    let* pw := pow10 (d_n d - p) in
    let f := Z.quot (wrap64 (d_f d + lshr pw 1)) pw in
    if p =? 0 then Ok (mkFpd f (if f =? 0 then 0 else e) 1)
    else
      let* pp10 := pow10 p in
      if f =? pp10 then Ok (mkFpd (Z.quot f 10) (wrap32 (e + 1)) p) else Ok (mkFpd f e p).

(** FormattedFPDecimal.java:96-98 *)
Definition exponentRounded (d : fpd) : Z := d_n d + d_e d - 1.

(** FormattedFPDecimal.java:121-125 *)
Definition plainCharsPureInteger (d : fpd) : res (list Z) :=
  let* a := newArr (d_n d + d_e d) in
  let* a := fillWithZeros (d_n d) (d_n d + d_e d) a in
  let* (_, a) := fillWithDigits (d_f d) 0 (d_n d) a in Ok a.

(** FormattedFPDecimal.java:127-132 *)
Definition plainCharsMixed (d : fpd) : res (list Z) :=
  let n := d_n d in let e := d_e d in
  let* a := newArr (n + 1) in
  let* (x, a) := fillWithDigits (d_f d) (n + 1 + e) (n + 1) a in
  let* a := aset a (n + e) (ch ".") in
  let* (_, a) := fillWithDigits x 0 (n + e) a in Ok a.

(** FormattedFPDecimal.java:134-140 *)
Definition plainCharsPureFraction (d : fpd) : res (list Z) :=
  let n := d_n d in let e := d_e d in
  let* a := newArr (2 - e) in
  let* (_, a) := fillWithDigits (d_f d) (2 - e - n) (2 - e) a in
  let* a := fillWithZeros 0 (2 - e - n) a in
  aset a 1 (ch ".").

(** FormattedFPDecimal.java:110-119 *)
Definition plainChars (d : fpd) : res (list Z) :=
  if 0 <=? d_e d then plainCharsPureInteger d
  else if 0 <? d_n d + d_e d then plainCharsMixed d
  else plainCharsPureFraction d.

(** FormattedFPDecimal.java:161-171 *)
Definition scientificMantissa (d : fpd) (prec : Z) : res (list Z) :=
  if negb (prec =? 0) then
    let* a := newArr (1 + d_n d) in
    let* (x, a) := fillWithDigits (d_f d) 2 (1 + d_n d) a in
    let* a := aset a 1 (ch ".") in
    aset a 0 (toDigit x)
  else Ok [toDigit (d_f d)].

(** FormattedFPDecimal.java:190-204 *)
Definition expChars (d : fpd) : list Z :=
  let er := exponentRounded d in
  let aer := Z.abs er in
  let sg := if 0 <=? er then ch "+" else ch "-" in
  if 100 <=? aer then
    let q := Z.quot aer 10 in
    let q2 := Z.quot q 10 in
    [sg; toDigit q2; toDigit (q - 10 * q2); toDigit (aer - 10 * q)]
  else
    let q := Z.quot aer 10 in
    [sg; toDigit q; toDigit (aer - 10 * q)].

(** mantissa and exponent arrays; a null exponent is None *)
Definition fpchars := (list Z * option (list Z))%type.

(** FormattedFPDecimal.java:100-108; [n + e + (long) prec] *)
Definition plain (d : fpd) (prec : Z) : res fpchars :=
  let* d := round d (d_n d + d_e d + prec) in
  let* m := plainChars d in Ok (m, None).

(** FormattedFPDecimal.java:151-159 *)
Definition scientificChars (d : fpd) (prec : Z) : res fpchars :=
  let* m := scientificMantissa d prec in Ok (m, Some (expChars d)).

(** FormattedFPDecimal.java:142-149 *)
Definition scientific (d : fpd) (prec : Z) : res fpchars :=
  let* d := round d (prec + 1) in scientificChars d prec.

(** FormattedFPDecimal.java:173-188 *)
Definition general (d : fpd) (prec : Z) : res fpchars :=
  let* d := round d prec in
  let er := exponentRounded d in
  if (-4 <=? er) && (er <? prec) then
    let* m := plainChars d in Ok (m, None)
  else scientificChars d (prec - 1).

(** DoubleToDecimal.java:129-131 and 362-369: f, e and n for a double; all 0 when it is 0.0, infinite
    or NaN (toDecimal then returns without touching fd). A finite double with sign bit 1 makes toDecimal append '-' to the
    byte array, which is null here (DoubleToDecimal.java:100-102, 229-236); DoubleWrapper passes absolute values. *)
Definition split (bits : Z) : res fpd :=
  let* c := toDecimal bits in
  match c with
  | NonSpecial true _ _ | MinusZero => Err NullPtr
  | NonSpecial false f e => let* n := decLen f in Ok (mkFpd f e n)
  | _ => Ok (mkFpd 0 0 0)
  end.

(** FormattedFPDecimal.java:58-71 *)
Definition fp_valueOf (v prec form : Z) : res fpchars :=
  let* d := split v in
  if form =? ch "e" then scientific d prec
  else if form =? ch "f" then plain d prec
  else if form =? ch "g" then general d prec
  else Err IllegalArg.
