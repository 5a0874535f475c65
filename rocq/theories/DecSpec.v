(** What the decimal of a double has to be (the definition in the Javadoc of java.lang.Double.toString), over the rationals. *)
From Coq Require Import QArith Qabs.
From Verif Require Import Base.
Open Scope Q_scope.

(** the decimal f * 10^e *)
Definition dec (f e : Z) : Q := inject_Z f * 10 ^ e.

(** the value of the non-negative binary64 bit pattern [b] (IEEE 754, 3.4): exponent field b / 2^52, fraction field b mod 2^52.
    For the pattern of infinity, 2047 * 2^52, this is 2^1024, the value used for deciding about overflow (IEEE 754, 4.3.1). *)
Definition dval (b : Z) : Q :=
  let e := (b / 2 ^ 52)%Z in
  let m := (b mod 2 ^ 52)%Z in
  if (e =? 0)%Z then inject_Z m * 2 ^ (-1074) else inject_Z (2 ^ 52 + m) * 2 ^ (e - 1075).

Definition inf_bits : Z := (2047 * 2 ^ 52)%Z.

(** reading [x] gives the double [b]: no other double is nearer, and on a tie [b] is the even one (roundTiesToEven) *)
Definition rounds_to (x : Q) (b : Z) : Prop :=
  forall b' : Z, (0 <= b' <= inf_bits)%Z ->
    Qabs (x - dval b) <= Qabs (x - dval b') /\
    (b' <> b -> Qabs (x - dval b) == Qabs (x - dval b') -> Z.even b = true).

(** [x] can be written with at most [n] significant digits *)
Definition digits_le (x : Q) (n : Z) : Prop := exists f e, (0 < f < 10 ^ n)%Z /\ x == dec f e.

(** [x] has the length required of the result: no decimal that reads as [b] is shorter, lengths 1 and 2 counting the same *)
Definition short_enough (x : Q) (b : Z) : Prop :=
  forall f e n, (0 < f < 10 ^ n)%Z -> rounds_to (dec f e) b -> digits_le x (Z.max 2 n).

(** among the decimals of that length f * 10^e is the nearest to the double; on a tie between neighbours the one with even significand *)
Definition closest (f e b : Z) : Prop :=
  forall f' e', (0 < f')%Z -> rounds_to (dec f' e') b -> short_enough (dec f' e') b ->
    dec f e == dec f' e' \/
    Qabs (dec f e - dval b) < Qabs (dec f' e' - dval b) \/
    (Qabs (dec f e - dval b) == Qabs (dec f' e' - dval b) /\ Z.even f = true /\
     exists g, dec f' e' == dec g e /\ (g = f + 1 \/ g = f - 1)%Z).

(** what is asked of the decimal of [b] *)
Definition right_decimal (b f e : Z) : Prop :=
  (0 < f)%Z /\ rounds_to (dec f e) b /\ short_enough (dec f e) b /\ closest f e b.
