(** Reference texts for %e and %g of BigDecimal and BigInteger arguments. Their %f is [c_f]; C's %e and %g are [c_e] and [c_g]
    of FloatSpec.v. Here: what fast-printf prints where it departs from these. *)
From Coq Require Import QArith.
From Verif Require Import Base Digits BigDecM TraitsM DecSpec FmtSpec FloatSpec.
Open Scope Z_scope.

(** [u * 10^-s] is a java.math.BigDecimal: BigIntegers have less than 2^31 bits, the scale is an int *)
Definition java_decimal (u s : Z) : Prop := Z.log2 (Z.abs u) < 2147483647 /\ - 2147483648 <= s <= 2147483647.

(** digits of [f] kept when at most [P] are asked for *)
Definition kept (f P : Z) : Z := Z.min (ndigits f) P.

(** the exponent of the last of them, after rounding; a BigDecimal with that last digit has minus this as its scale *)
Definition last_exp (f e P : Z) : Z := if f =? 0 then e else let (_, X) := sig f e P in X - kept f P + 1.

(** exponent 9 is printed as "+9" when exactly ten digits are kept *)
Definition big_exp_text (f P X : Z) : list Z := if (X =? 9) && (kept f P =? 10) then txt "e+9" else exp_text X.

(** %e: the exponent of a zero is minus its scale *)
Definition be_body (q : fspec) (f e : Z) : list Z :=
  let p := prec_or 6 q in
  if f =? 0 then (if q_alt q then alt_text 0 p else decimal_text 0 p) ++ exp_text e
  else let (S, X) := sig f e (p + 1) in
       (if q_alt q then alt_text S p else decimal_text S p) ++ big_exp_text f (p + 1) X.
Definition b_e (q : fspec) (neg : bool) (f e : Z) : list Z := finite_text q neg (be_body q f e).

(** %g: the style depends on the exponent before rounding *)
Definition bg_positional (f e P : Z) : bool :=
  if f =? 0 then e =? 0 else (-4 <=? ndigits f + e - 1) && (ndigits f + e - 1 <? P).

(** positional style: the number is laid out as N * 10^-j *)
Definition bg_fixed (f e P : Z) : Z * Z :=
  let n := ndigits f in
  let p := P - n - e in
  if n <=? P then (f * 10 ^ Z.max 0 e, Z.max 0 (- e))
  else
    let r := hup f (n - P) in
    if (r =? 10 ^ P) && (- e <? n) then (if p =? 0 then (10 ^ P, 0) else (10 ^ (P - 1), p - 1)) else (r, p).

(** exponent style: the kept digits and the exponent *)
Definition bg_sci (f e P : Z) : Z * Z :=
  if f =? 0 then (0, e) else let (S, X) := sig f e P in (S / 10 ^ (P - kept f P), X).

(** Without '#', trailing zeros of [N * 10^-j] are cut off. If only some of the fraction digits go, the length reported
    for the result is too small by the number of characters before the last stretch of digits (C19), and
    the padding to the width too long by as many. *)
Definition cut_loss (N j : Z) : Z :=
  let (M, r) := drop_zeros (Z.to_nat j) N in
  if (r =? j) || (r =? 0) then 0 else if j <? ndigits N then ndigits N - j + 1 else j - ndigits N + 2.

(** text and padding error *)
Definition bg_parts (q : fspec) (f e : Z) : list Z * Z :=
  let P := g_prec q in
  if bg_positional f e P then
    let (N, j) := bg_fixed f e P in
    if q_alt q then let z := Z.max 0 (P - ndigits N) in (alt_text (N * 10 ^ z) (j + z), 0)
    else (short_text N j, cut_loss N j)
  else
    let (D, X) := bg_sci f e P in
    let j := kept f P - 1 in
    ((if q_alt q then decimal_text D j else short_text D j) ++ (if f =? 0 then exp_text e else big_exp_text f P X),
     if q_alt q then 0 else cut_loss D j).

Definition widen (q : fspec) (n : Z) : fspec :=
  mkSpec (q_left q) (q_alt q) (q_plus q) (q_space q) (q_zero q) (q_width q + n) (q_prec q).

Definition b_g (q : fspec) (neg : bool) (f e : Z) : list Z :=
  let (t, n) := bg_parts q f e in finite_text (widen q n) neg t.

(** argument [v] is the decimal number [u * 10^-s], given with scale [s] *)
Inductive is_decimal : value -> Z -> Z -> Prop :=
| is_dec u s : java_decimal u s -> is_decimal (VDec (mkBD u s)) u s
| is_bigint z : java_decimal z 0 -> is_decimal (VBig z) z 0.
