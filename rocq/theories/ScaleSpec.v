(** Which of its decimals a double is printed from: the exponent, and with it the trailing zeros of the digits. *)
From Coq Require Import QArith.
From Verif Require Import Base DecSpec FloatSpec.
Open Scope Z_scope.

(** the distance between the midpoints to the doubles below and above *)
Definition interval (m : Z) : Q := ((dval (m + 1) - dval (m - 1)) * (1 # 2))%Q.

(** the positive double [m] is an integer below 2^52 *)
Definition whole (m : Z) : Prop := exists n, 0 < n < 2 ^ 52 /\ (dval m == inject_Z n)%Q.

(** [e] is the exponent [m] is written with: 0 for integers, else the largest for which 10^e fits the interval; one less for
    the two smallest doubles *)
Inductive scale_of (m : Z) : Z -> Prop :=
| sc_whole : whole m -> scale_of m 0
| sc_tiny e : m < 3 -> (10 ^ (e + 1) <= interval m < 10 ^ (e + 2))%Q -> scale_of m e
| sc_other e : 3 <= m -> ~ whole m -> (10 ^ e <= interval m < 10 ^ (e + 1))%Q -> scale_of m e.

(** the finite double [b] without its sign is f * 10^e, and is printed from the digits of [f] *)
Definition its_digits (b f e : Z) : Prop :=
  magnitude b = 0 /\ f = 0 /\ e = 0 \/
  0 < magnitude b < inf_bits /\ right_decimal (magnitude b) f e /\ scale_of (magnitude b) e.
