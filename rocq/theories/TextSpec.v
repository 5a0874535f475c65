(** What java.lang.Double.toString is documented to print for the decimal it has chosen: the layout rules of its Javadoc, over the
    rationals. *)
From Coq Require Import QArith.
From Verif Require Import Base Digits DecSpec FloatSpec.
Open Scope Z_scope.

(** [v] written with a point: at least one digit on each side, no leading zero but a single one before the point, and no trailing zero
    but a single one after the point *)
Definition point_text (v : Q) (t : list Z) : Prop :=
  exists N p, 0 <= N /\ 1 <= p /\ (p = 1 \/ N mod 10 <> 0) /\ (v == dec N (- p))%Q /\ t = decimal_text N p.

(** the text for the magnitude [v]: plain from 10^-3 to below 10^7, else the mantissa from 1 to below 10, 'E' and the exponent *)
Definition plain_range (v : Q) : Prop := (1 # 1000 <= v)%Q /\ (v < 10000000)%Q.
Inductive double_text (v : Q) : list Z -> Prop :=
| dt_plain t : plain_range v -> point_text v t -> double_text v t
| dt_exponent m x t : ~ plain_range v -> (1 <= m)%Q -> (m < 10)%Q -> (v == m * 10 ^ x)%Q -> point_text m t ->
    double_text v (t ++ ch "E" :: dec_text x).
