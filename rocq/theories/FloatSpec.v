(** Reference texts of the floating-point conversions (C11 7.21.6.1, %f %e %g), for the decimal number f * 10^e to be printed.
    Ties are rounded away from zero (RoundingMode.HALF_UP), as in java.util.Formatter. *)
From Coq Require Import QArith.
From Verif Require Import Base Digits DecSpec FmtSpec.
Open Scope Z_scope.

(** ** What rounding means *)

(** [N] units of 10^-p are [x] rounded half up *)
Definition half_up_at (x : Q) (p N : Z) : Prop := (inject_Z N - (1 # 2) <= x * 10 ^ p < inject_Z N + (1 # 2))%Q.

(** [S * 10^(X-P+1)], with 10^(P-1) <= S < 10^P, is [x] rounded half up to [P] significant digits *)
Definition sig_half_up (x : Q) (P S X : Z) : Prop :=
  exists X0 N, (10 ^ X0 <= x < 10 ^ (X0 + 1))%Q /\ half_up_at x (P - 1 - X0) N /\
    (dec S (X - P + 1) == dec N (X0 - P + 1))%Q /\ 10 ^ (P - 1) <= S < 10 ^ P.

(** [M * 16^-P * 2^x], with 16^P <= M < 2 * 16^P, is [v] rounded to [P] hexadecimal fraction digits, to nearest, ties to even *)
Definition hex_nearest (v : Q) (P M x : Z) : Prop :=
  exists x0 N, (2 ^ x0 <= v < 2 ^ (x0 + 1))%Q /\
    (inject_Z N - (1 # 2) <= v * 16 ^ P * 2 ^ (- x0) <= inject_Z N + (1 # 2))%Q /\
    ((inject_Z N - (1 # 2) == v * 16 ^ P * 2 ^ (- x0))%Q \/ (v * 16 ^ P * 2 ^ (- x0) == inject_Z N + (1 # 2))%Q -> Z.even N = true) /\
    (inject_Z M * 2 ^ x == inject_Z N * 2 ^ x0)%Q /\ 16 ^ P <= M < 2 * 16 ^ P.

(** ** Doubles as bit patterns *)

(** the pattern without its sign, and the value of a finite pattern *)
Definition magnitude (b : Z) : Z := b mod 2 ^ 63.
Definition finite (b : Z) : Prop := magnitude b < inf_bits.
Definition sval (b : Z) : Q := (if b <? 0 then - dval (magnitude b) else dval (magnitude b))%Q.

(** f * 10^e is the decimal of the finite double [b] without its sign *)
Definition its_decimal (b f e : Z) : Prop :=
  magnitude b = 0 /\ f = 0 \/ 0 < magnitude b < inf_bits /\ right_decimal (magnitude b) f e.

(** [b] is the pattern of the double nearest to [x]; exact 0 is +0.0 *)
Definition nearest_double (x : Q) (b : Z) : Prop :=
  - 2 ^ 63 <= b < 2 ^ 63 /\ magnitude b <= inf_bits /\
  ((x == 0)%Q /\ b = 0 \/
   (0 < x)%Q /\ 0 <= b /\ rounds_to x (magnitude b) \/
   (x < 0)%Q /\ b < 0 /\ rounds_to (- x) (magnitude b)).

(** the value of a non-negative binary32 bit pattern; [b] is the double of the same value as the float [f] *)
Definition fval (f : Z) : Q :=
  if f / 2 ^ 23 =? 0 then (inject_Z (f mod 2 ^ 23) * 2 ^ (-149))%Q else (inject_Z (2 ^ 23 + f mod 2 ^ 23) * 2 ^ (f / 2 ^ 23 - 150))%Q.
Definition widened (f b : Z) : Prop :=
  f mod 2 ^ 31 < 255 * 2 ^ 23 /\ - 2 ^ 63 <= b < 2 ^ 63 /\ finite b /\ (b < 0 <-> f < 0) /\
  (dval (magnitude b) == fval (f mod 2 ^ 31))%Q.

(** ** Computing it *)

(** f * 10^-k rounded half up *)
Definition hup (f k : Z) : Z := if k <=? 0 then f * 10 ^ (- k) else (f + 10 ^ k / 2) / 10 ^ k.

(** f * 10^e, f > 0, to [P] significant digits: digits and decimal exponent *)
Definition sig (f e P : Z) : Z * Z :=
  let n := ndigits f in
  let r := hup f (n - P) in
  if r =? 10 ^ P then (10 ^ (P - 1), n + e) else (r, n + e - 1).

(** ** Texts *)

(** N * 10^-p with exactly [p] fraction digits *)
Definition fraction (p N : Z) : list Z := map digit_char (fixdigs 10 (Z.to_nat p) N).
Definition decimal_text (N p : Z) : list Z :=
  numeral 10 (N / 10 ^ p) ++ (if p =? 0 then [] else ch "." :: fraction p N).

(** the same, with a decimal point even if no digit follows *)
Definition alt_text (N p : Z) : list Z := decimal_text N p ++ (if p =? 0 then txt "." else []).

(** the same without trailing fraction zeros *)
Fixpoint drop_zeros (p : nat) (N : Z) : Z * Z :=
  match p with
  | O => (N, 0)
  | S p' => if N mod 10 =? 0 then drop_zeros p' (N / 10) else (N, Z.of_nat p)
  end.
Definition short_text (N p : Z) : list Z := let (M, r) := drop_zeros (Z.to_nat p) N in decimal_text M r.

(** exponent: sign and at least two digits *)
Definition exp_text (x : Z) : list Z :=
  ch "e" :: (if x <? 0 then ch "-" else ch "+") :: min_digits 2 (numeral 10 (Z.abs x)).

Definition prec_or (d : Z) (q : fspec) : Z := match q_prec q with Some p => p | None => d end.

(** a finite number: sign, padding *)
Definition finite_text (q : fspec) (neg : bool) (body : list Z) : list Z := pad_number q (q_zero q) (sign_text q neg) body.

(** %f *)
Definition f_body (q : fspec) (f e : Z) : list Z :=
  let p := prec_or 6 q in
  let N := hup f (- (e + p)) in
  if q_alt q then alt_text N p else decimal_text N p.
Definition c_f (q : fspec) (neg : bool) (f e : Z) : list Z := finite_text q neg (f_body q f e).

(** %e; zero has exponent 0 *)
Definition sig0 (f e P : Z) : Z * Z := if f =? 0 then (0, 0) else sig f e P.
Definition e_body (q : fspec) (f e : Z) : list Z :=
  let p := prec_or 6 q in
  let (S, X) := sig0 f e (p + 1) in
  (if q_alt q then alt_text S p else decimal_text S p) ++ exp_text X.
Definition c_e (q : fspec) (neg : bool) (f e : Z) : list Z := finite_text q neg (e_body q f e).

(** %g: P significant digits (0 counts as 1); the style depends on the exponent after rounding *)
Definition g_prec (q : fspec) : Z := let P := prec_or 6 q in if P =? 0 then 1 else P.
Definition g_text (q : fspec) (S p : Z) : list Z := if q_alt q then alt_text S p else short_text S p.
Definition g_body (q : fspec) (f e : Z) : list Z :=
  let P := g_prec q in
  let (S, X) := sig0 f e P in
  if (-4 <=? X) && (X <? P) then g_text q S (P - 1 - X) else g_text q S (P - 1) ++ exp_text X.
Definition c_g (q : fspec) (neg : bool) (f e : Z) : list Z := finite_text q neg (g_body q f e).

(** NaN and infinities: fast-printf's words; the '0' flag does not apply *)
Definition c_nan (q : fspec) : list Z := justify q (txt "NaN").
Definition c_inf (q : fspec) (neg : bool) : list Z := justify q (sign_text q neg ++ txt "Infinity").

(** ** Where fast-printf departs from C *)

(** the space flag has no effect on infinities *)
Definition j_inf (q : fspec) (neg : bool) : list Z :=
  justify q ((if neg then txt "-" else if q_plus q then txt "+" else []) ++ txt "Infinity").

(** "%#g" in exponent style prints the digits of the decimal, at most P, without padding them to P *)
Definition g_irregular (q : fspec) (f e : Z) : bool :=
  let (S, X) := sig0 f e (g_prec q) in q_alt q && negb ((-4 <=? X) && (X <? g_prec q)).
Definition g_unpadded (q : fspec) (f e : Z) : list Z :=
  let P := g_prec q in
  let (S, X) := sig0 f e P in
  let m := Z.min (ndigits f) P in
  (if P =? 1 then decimal_text S 0 else alt_text (S / 10 ^ (P - m)) (m - 1)) ++ exp_text X.
Definition j_g (q : fspec) (neg : bool) (f e : Z) : list Z :=
  if g_irregular q f e then finite_text q neg (g_unpadded q f e) else c_g q neg f e.

(** ** %a *)

(** n/d to the nearest integer, ties to even *)
Definition near_even (n d : Z) : Z :=
  let k := n / d in
  let r := n mod d in
  if 2 * r <? d then k else if d <? 2 * r then k + 1 else if Z.even k then k else k + 1.

(** M * 16^-p with [p] hexadecimal fraction digits *)
Definition hex_fraction (p M : Z) : list Z := map digit_char (fixdigs 16 (Z.to_nat p) M).
Definition hex_text (M p : Z) : list Z := numeral 16 (M / 16 ^ p) ++ ch "." :: hex_fraction p M.
(** binary exponent, with sign, in decimal *)
Definition bin_exp_text (x : Z) : list Z := ch "p" :: (if x <? 0 then ch "-" else ch "+") :: numeral 10 (Z.abs x).

(** without trailing zeros, but at least one fraction digit *)
Fixpoint drop_hex (p : nat) (M : Z) : Z * Z :=
  match p with
  | S (S _ as p') => if M mod 16 =? 0 then drop_hex p' (M / 16) else (M, Z.of_nat p)
  | _ => (M, Z.of_nat p)
  end.

(** the magnitude [b] is c * 16^-13 * 2^x *)
Definition bin_parts (b : Z) : Z * Z :=
  if b / 2 ^ 52 =? 0 then (b, if b =? 0 then 0 else -1022) else (2 ^ 52 + b mod 2 ^ 52, b / 2 ^ 52 - 1023).

(** digits and exponent for [P] fraction digits; fewer than 13 digits: one leading bit, rounded to even *)
Definition hex_digits (b P : Z) : Z * Z :=
  let (c, x) := bin_parts b in
  if (c =? 0) || (13 <=? P) then (c * 16 ^ (P - 13), x)
  else
    let l := Z.log2 c in
    let M := near_even (c * 16 ^ P) (2 ^ l) in
    if M =? 2 * 16 ^ P then (16 ^ P, x - 52 + l + 1) else (M, x - 52 + l).

(** precision 0 counts as 1 *)
Definition a_body (q : fspec) (b : Z) : list Z :=
  match q_prec q with
  | None => let (c, x) := bin_parts b in let (M, k) := drop_hex 13 c in hex_text M k ++ bin_exp_text x
  | Some p => let P := Z.max 1 p in
              if b =? 0 then hex_text 0 P ++ bin_exp_text 0 else let (M, x) := hex_digits b P in hex_text M P ++ bin_exp_text x
  end.
Definition j_a (q : fspec) (neg : bool) (b : Z) : list Z := pad_number q (q_zero q) (sign_text q neg ++ txt "0x") (a_body q b).
