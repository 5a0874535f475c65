(** IEEE 754 double arithmetic used through Java casts and operators (JLS 5.1, 15.17, 15.18), on bit patterns:
    round to nearest even of an exact rational, narrowing casts, Math.round. *)
From Verif Require Import Base MathM DecimalM FPDecimalM SeqM FormatterM DoubleM.

(** |value| of a finite double is [dbl_c b * 2 ^ dbl_q b] *)
Definition dbl_c (b : Z) : Z := if dbl_bexp b =? 0 then dbl_frac b else 2 ^ 52 + dbl_frac b.
Definition dbl_q (b : Z) : Z := Z.max 1 (dbl_bexp b) - 1075.

(** nearest integer to n/d (d > 0), ties to even *)
Definition rne (n d : Z) : Z :=
  let k := n / d in
  match 2 * (n - k * d) ?= d with
  | Lt => k
  | Gt => k + 1
  | Eq => if Z.even k then k else k + 1
  end.

(** floor(log2(n/d)) for n, d > 0 *)
Definition log2_ratio (n d : Z) : Z :=
  let e := Z.log2 n - Z.log2 d in
  if (if 0 <=? e then d * 2 ^ e <=? n else d <=? n * 2 ^ (- e)) then e else e - 1.

(** magnitude bits of the double nearest to n/d > 0 *)
Definition round_pos (n d : Z) : Z :=
  let q := Z.max (log2_ratio n d - 52) (-1074) in
  let m := if 0 <=? q then rne n (d * 2 ^ q) else rne (n * 2 ^ (- q)) d in
  let bits := if m <? 2 ^ 52 then m else (q + 1075) * 2 ^ 52 + (m - 2 ^ 52) in
  Z.min bits (2047 * 2 ^ 52).

(** the double nearest to n/d, d > 0; exact zero is +0.0 *)
Definition round_double (n d : Z) : Z :=
  if n =? 0 then 0 else if n <? 0 then round_pos (- n) d - 2 ^ 63 else round_pos n d.

(** (double) of a long or int *)
Definition ofLong (v : Z) : Z := round_double v 1.

(** a finite double times 2^1074, an integer *)
Definition dbl_num (b : Z) : Z :=
  let m := dbl_c b * 2 ^ (dbl_q b + 1074) in if dbl_neg b then - m else m.

(** x / y for finite x and finite y > 0, x not -0.0 *)
Definition dbl_div (x y : Z) : Z := round_double (dbl_num x) (dbl_num y).
(** x + y for finite x, y that are not -0.0 *)
Definition dbl_add (x y : Z) : Z := round_double (dbl_num x + dbl_num y) (2 ^ 1074).

Definition clamp (lo hi v : Z) : Z := Z.max lo (Z.min hi v).

(** (long) of a double: truncation, saturating, NaN to 0 *)
Definition dbl_trunc (b : Z) : Z :=
  let m := if 0 <=? dbl_q b then dbl_c b * 2 ^ dbl_q b else dbl_c b / 2 ^ (- dbl_q b) in
  if dbl_neg b then - m else m.
Definition d2l (b : Z) : Z := if dbl_isNaN b then 0 else clamp long_min long_max (dbl_trunc b).
Definition d2i (b : Z) : Z := if dbl_isNaN b then 0 else clamp int_min int_max (dbl_trunc b).

(** floor(x + 1/2) *)
Definition dbl_floorHalf (b : Z) : Z :=
  let c := if dbl_neg b then - dbl_c b else dbl_c b in
  if 0 <=? dbl_q b then c * 2 ^ dbl_q b else (2 * c + 2 ^ (- dbl_q b)) / 2 ^ (1 - dbl_q b).
(** Math.round(double), Math.round(float) *)
Definition mathRoundD (b : Z) : Z := if dbl_isNaN b then 0 else clamp long_min long_max (dbl_floorHalf b).
Definition mathRoundF (b : Z) : Z := if dbl_isNaN b then 0 else clamp int_min int_max (dbl_floorHalf b).

(** float (32-bit pattern, as an int) widened to double: exact *)
Definition f2d (f : Z) : Z :=
  let m := f mod 2 ^ 23 in
  let e := (f mod 2 ^ 31) / 2 ^ 23 in
  let mag :=
    if e =? 255 then 2047 * 2 ^ 52 + m * 2 ^ 29
    else if negb (e =? 0) then (e + 896) * 2 ^ 52 + m * 2 ^ 29
    else if m =? 0 then 0
    else let l := Z.log2 m in (l + 874) * 2 ^ 52 + (m * 2 ^ (52 - l) - 2 ^ 52) in
  if f <? 0 then mag - 2 ^ 63 else mag.
